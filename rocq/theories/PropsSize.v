(** The size of what is parsed (C138). *)
From Coq Require Import String ZArith List Lia Bool.
From Verif Require Import PyBase PyVal FormatModel FormatSpec FormatProofs FormatProofs2 MessagesModel MessagesProofs PropsProtocol.
Import ListNotations.
Open Scope string_scope.
Open Scope list_scope.
Open Scope Z_scope.

(** The bytes of the byte strings and the items of the lists of a value. *)
Fixpoint size (v : pyval) : Z :=
  match v with
  | VBytes b => zlen b
  | VList l | VTuple l => (fix go l := match l with [] => 0 | x :: r => 1 + size x + go r end) l
  | VObj _ fs => (fix go fs := match fs with [] => 0 | (_, x) :: r => size x + go r end) fs
  | _ => 0
  end.
(** The same for the fields of a message. *)
Fixpoint size_fields (fs : list (string * pyval)) : Z :=
  match fs with [] => 0 | (_, x) :: r => size x + size_fields r end.

(** ** Proofs *)
Fixpoint size_items (l : list pyval) : Z := match l with [] => 0 | x :: r => 1 + size x + size_items r end.
Lemma size_list l : size (VList l) = size_items l.
Proof. induction l as [|x r IH]; [reflexivity|]. cbn [size_items]. rewrite <- IH. reflexivity. Qed.
Lemma size_obj c fs : size (VObj c fs) = size_fields fs.
Proof. induction fs as [|(k, x) r IH]; [reflexivity|]. cbn [size_fields]. rewrite <- IH. reflexivity. Qed.

Lemma size_nonneg : forall v, 0 <= size v.
Proof.
  fix F 1. intro v. destruct v; cbn [size]; try lia.
  - apply zlen_nonneg.
  - induction l as [|x r IH]; [lia|]. pose proof (F x). lia.
  - induction l as [|x r IH]; [lia|]. pose proof (F x). lia.
  - induction fields as [|[k x] r IH]; [lia|]. pose proof (F x). lia.
Qed.
Lemma size_fields_nonneg fs : 0 <= size_fields fs.
Proof. induction fs as [|(k, x) r IH]; cbn [size_fields]; [lia|]. pose proof (size_nonneg x). lia. Qed.

(** Reading a value of the type takes a byte that is there. *)
Fixpoint solid (t : ft) : bool :=
  match t with
  | FNumber _ _ _ | FVarInt | FVarStr | FArray _ _ _ => true
  | FCompound _ ps => (fix go ps := match ps with [] => false | (_, t) :: r => solid t || go r end) ps
  | _ => false
  end.
(** This holds for the items of all arrays. *)
Fixpoint firm (t : ft) : bool :=
  match t with
  | FArray t _ _ => solid t && firm t
  | FCompound _ ps | FCompoundNoTs _ ps => (fix go ps := match ps with [] => true | (_, t) :: r => firm t && go r end) ps
  | FOptional t d => firm t && (size d =? 0)
  | _ => true
  end.
Fixpoint solids (ps : list (string * ft)) : bool := match ps with [] => false | (_, t) :: r => solid t || solids r end.
Fixpoint firms (ps : list (string * ft)) : bool := match ps with [] => true | (_, t) :: r => firm t && firms r end.
Lemma solid_compound c ps : solid (FCompound c ps) = solids ps.
Proof. induction ps as [|(k, t) r IH]; [reflexivity|]. cbn [solids]. rewrite <- IH. reflexivity. Qed.
Lemma firm_compound c ps : firm (FCompound c ps) = firms ps.
Proof. induction ps as [|(k, t) r IH]; [reflexivity|]. cbn [firms]. rewrite <- IH. reflexivity. Qed.
Lemma firm_compoundnots c ps : firm (FCompoundNoTs c ps) = firms ps.
Proof. induction ps as [|(k, t) r IH]; [reflexivity|]. cbn [firms]. rewrite <- IH. reflexivity. Qed.

Definition sized (t : ft) : Prop := wf_ft t -> firm t = true -> forall data n v, wf_bytes data -> parse t data = Ok (n, v) ->
  0 <= n /\ size v + Z.b2z (solid t) <= Z.min n (zlen data).

Lemma items_sized t : (forall data n v, wf_bytes data -> parse t data = Ok (n, v) -> 0 <= n /\ size v + 1 <= Z.min n (zlen data)) ->
  forall k data off n l, wf_bytes data -> 0 <= off -> parse_items (parse t) k data off = Ok (n, l) ->
  off <= n /\ size_items l <= Z.min n (zlen data) - Z.min off (zlen data).
Proof.
  intros Ht. induction k as [|k IH]; intros data off n l Hw Ho H; cbn in H.
  - inv H. split; [lia|]. cbn [size_items]. lia.
  - bind_inv H. destruct x as (len, x). bind_inv H. destruct x0 as (off', xs). inv H.
    apply Ht in H0; [|now apply Forall_zdrop]. destruct H0 as (Hlen & Hx). rewrite zlen_zdrop in Hx by lia.
    apply IH in H1; [|assumption|lia]. destruct H1 as (Hoff & Hxs). split; [lia|]. cbn [size_items]. lia.
Qed.
Lemma fields_sized ps : Forall (fun e => sized (snd e)) ps -> wf_fts ps -> firms ps = true ->
  forall data off n fs, wf_bytes data -> 0 <= off -> fields_parse ps off data = Ok (n, fs) ->
  off <= n /\ size_fields fs + Z.b2z (solids ps) <= Z.min n (zlen data) - Z.min off (zlen data).
Proof.
  induction 1 as [|(k, t) r Ht Hr IH]; intros Hwf Hf data off n fs Hw Ho H; cbn [fields_parse] in H.
  - inv H. split; [lia|]. cbn. lia.
  - destruct (parse t (zdrop off data)) as [(len, x)|] eqn:E; [|discriminate].
    bind_inv H. destruct x0 as (off', xs). inv H. cbn in Hwf. destruct Hwf as (Hwt & Hwr). cbn [firms] in Hf. apply andb_true_iff in Hf. destruct Hf as (Hft & Hfr).
    apply Ht in E; [|assumption|assumption|now apply Forall_zdrop]. destruct E as (Hlen & Hx). cbn [snd] in Hx. rewrite zlen_zdrop in Hx by lia.
    apply IH in H0; [|assumption|assumption|assumption|lia]. destruct H0 as (Hoff & Hxs). cbn [size_fields solids].
    assert (Z.b2z (solid t || solids r) <= Z.b2z (solid t) + Z.b2z (solids r)) by (destruct (solid t), (solids r); cbn; lia). split; lia.
Qed.

Lemma parse_sized t : sized t.
Proof.
  induction t using ft_ind'; unfold sized; intros Hwf Hf data n0 v Hw H0; cbn [parse] in H0.
  - unfold num_parse in H0. bind_inv H0. inv H0. cbn [size solid Z.b2z]. unfold struct_unpack in H. destruct (Z.eqb_spec (zlen (ztake (Z.of_nat (nf_len f)) data)) (Z.of_nat (nf_len f))) as [E|]; [|discriminate].
    assert (0 < Z.of_nat (nf_len f)) by (destruct f; cbn; lia). rewrite zlen_ztake in E by lia. destruct f; cbn in *; lia.
  - bind_inv H0. destruct x as (n', z). inv H0. apply varint_parse_ok in H; [|assumption]. cbn [size solid Z.b2z]. lia.
  - unfold ip_parse in H0. assert (n0 = 16 /\ size v = 0) as (-> & ->) by (destruct (_ && _); destruct (_ =? _); inv H0; now split).
    cbn [solid Z.b2z]. pose proof (zlen_nonneg data). lia.
  - inv H0. cbn [wf_ft] in Hwf. split; [assumption|]. cbn [size solid Z.b2z]. rewrite zlen_ztake by lia. lia.
  - unfold varstr_parse in H0. bind_inv H0. destruct x as (vl, len). inv H0. apply varint_parse_ok in H; [|assumption].
    pose proof (zlen_nonneg (slice vl (vl + len) data)). split; [lia|]. cbn [size solid Z.b2z].
    assert (zlen (slice vl (vl + len) data) <= zlen data - vl). { unfold slice. pose proof (zlen_zdrop data vl ltac:(lia)). rewrite zlen_ztake by lia. lia. } lia.
  - cbn [wf_ft] in Hwf. destruct Hwf as (Hwf & _). cbn [firm] in Hf. apply andb_true_iff in Hf. destruct Hf as (Hs & Hf). bind_inv H0. destruct x as (off, l). inv H0.
    unfold parse_var_set in H. bind_inv H. destruct x as (o, c). apply varint_parse_ok in H0; [|assumption].
    apply (items_sized t) in H; [|intros d n' v' Wd Ed; pose proof (IHt Hwf Hf d n' v' Wd Ed) as K; rewrite Hs in K; exact K|assumption|lia].
    rewrite size_list. cbn [solid Z.b2z]. lia.
  - cbn [wf_ft] in Hwf. destruct Hwf as (Hnd & Hwf). rewrite wf_fts_go in Hwf. rewrite firm_compound in Hf.
    change (parse (FCompound c ps) data = Ok (n0, v)) in H0.
    rewrite parse_compound in H0. bind_inv H0. destruct x as (off, fs). inv H0.
    apply fields_sized in H1; auto; [|lia]. destruct H1 as (Ho & Hz). rewrite size_obj, solid_compound. pose proof (zlen_nonneg data). lia.
  - cbn [wf_ft] in Hwf. destruct Hwf as (Hnd & (k & a & r & Hps) & Hwf). rewrite wf_fts_go in Hwf. rewrite firm_compoundnots in Hf.
    change (parse (FCompoundNoTs c ps) data = Ok (n0, v)) in H0.
    rewrite parse_compoundnots in H0. bind_inv H0. destruct x as (off, fs). injection H0 as <- <-.
    assert (wf_bytes ([0;0;0;0] ++ data)) as Hw'.
    { apply wf_bytes_app. split; [repeat constructor; unfold is_byte; lia|assumption]. }
    subst ps. cbn [fields_parse] in H1.
    destruct (parse (FNumber FI false a) (zdrop 0 ([0;0;0;0] ++ data))) as [(len, x)|] eqn:E; [|discriminate].
    assert (len = 4 /\ size x = 0) as (-> & Hx). { cbn [parse] in E. unfold num_parse in E. bind_inv E. now inv E. }
    bind_inv H1. destruct x0 as (off', xs). inv H1. inv H. cbn [wf_fts] in Hwf. destruct Hwf as (_ & Hwfr). cbn [firms] in Hf. apply andb_true_iff in Hf.
    apply (fields_sized r H4 Hwfr (proj2 Hf)) in H0; [|exact Hw'|lia]. destruct H0 as (Ho & Hz). rewrite zlen_app in Hz. change (zlen [0;0;0;0]) with 4 in Hz.
    rewrite size_obj. cbn [size_fields solid Z.b2z]. rewrite Hx. pose proof (zlen_nonneg data). destruct (solids r); cbn [Z.b2z] in Hz; lia.
  - cbn [wf_ft] in Hwf. destruct Hwf as (Hwf & Hd & _). cbn [firm] in Hf. apply andb_true_iff in Hf. destruct Hf as (Hf & Hs). cbn [solid Z.b2z]. pose proof (zlen_nonneg data).
    destruct (parse t data) as [r|] eqn:E; inv H0.
    + apply IHt in E; auto. destruct E as (A & B). destruct (solid t); cbn [Z.b2z] in B; lia.
    + apply Z.eqb_eq in Hs. lia.
Qed.

(** ** C138 *)

(** The classes with an array of byte strings of fixed length. *)
Definition hash_lists : list string := ["getblocks"; "getheaders"; "merkleblock"].
Lemma registry_firm : Forall (fun t => ~ In (mt_command t) hash_lists -> wf_fts (mt_props t) /\ firms (mt_props t) = true) registry.
Proof.
  assert (Forall (fun t => wf_fts (mt_props t)) registry) as W.
  { pose proof all_types_wf as G. rewrite <- registry_all in G. rewrite Forall_forall in *. intros t Ht. now apply G. }
  assert (forallb (fun t => existsb (String.eqb (mt_command t)) hash_lists || firms (mt_props t)) registry = true) as F by (vm_compute; reflexivity).
  rewrite forallb_forall in F. rewrite Forall_forall in *. intros t Ht N. split; [now apply W|]. apply F in Ht. apply orb_true_iff in Ht. destruct Ht as [H|H]; [|exact H].
  exfalso. apply N. apply existsb_exists in H. destruct H as (x & I & E). apply String.eqb_eq in E. now subst x.
Qed.
(** Whatever bytes arrive: what is made of them is no larger than they are, for
    all messages but the three with lists of hashes. *)
Theorem C138_bounded_partial sha256 data magic m : wf_bytes data -> msg_parse sha256 data magic = Ok m -> ~ In (mt_command (m_type m)) hash_lists ->
  0 <= size_fields (m_fields m) <= Z.max 0 (zlen data - 24).
Proof.
  intros Hw H N. apply msg_parse_inv in H. cbn zeta in H. destruct H as (_ & Hl & _ & Ht & _ & n & Hf).
  pose proof registry_firm as R. rewrite Forall_forall in R. destruct (R _ Ht N) as (W & F).
  set (p := slice _ _ _) in Hf.
  assert (wf_bytes p) as Hp by (unfold p; now apply Forall_slice).
  assert (zlen p <= Z.max 0 (zlen data - 24)) as Hz.
  { unfold p, slice. etransitivity; [apply zlen_ztake_le|]. rewrite zlen_zdrop by lia. lia. }
  apply fields_sized in Hf; [|apply Forall_forall; intros; apply parse_sized|assumption|assumption|assumption|lia].
  destruct Hf as (A & B). pose proof (zlen_nonneg p). split; [apply size_fields_nonneg|].
  destruct (solids (mt_props (m_type m))); cbn [Z.b2z] in B; lia.
Qed.

(** For the three a frame of 33 bytes is enough: with any number below 2^32 there
    is one for which that many items are made. *)
Definition t_getblocks : msg_type := mk_msg_type "GetBlocks" "getblocks" "get_blocks"
  [ ("version", FNumber FI false false); ("block_locator_hashes", FArray (FBytes 32) (Some 1) None); ("hash_stop", FBytes 32) ].
Lemma getblocks_registered : In t_getblocks registry.
Proof. vm_compute. tauto. Qed.
Lemma empty_items k data off : zlen data <= off -> 0 <= off ->
  parse_items (parse (FBytes 32)) k data off = Ok (off + 32 * Z.of_nat k, repeat (VBytes []) k).
Proof.
  revert off. induction k as [|k IH]; intros off H H0; cbn [parse_items repeat].
  - f_equal. f_equal. lia.
  - change (parse (FBytes 32) (zdrop off data)) with (Ok (32, VBytes (ztake 32 (zdrop off data)))). cbn [bind]. rewrite (IH (off + 32)) by lia. cbn [bind].
    replace (zdrop off data) with (@nil Z). 2:{ symmetry. apply zlen_0_nil. rewrite zlen_zdrop by lia. lia. }
    replace (off + 32 + 32 * Z.of_nat k) with (off + 32 * Z.of_nat (S k)) by lia. reflexivity.
Qed.
Theorem C138_bounded_refuted sha256 magic n : (forall x, 4 <= zlen (sha256 x)) -> zlen magic = 4 -> 0 <= n < 2 ^ 32 ->
  exists data m, zlen data = 33 /\ msg_parse sha256 data magic = Ok m /\ mt_command (m_type m) = "getblocks" /\
    assoc "block_locator_hashes" (m_fields m) = Some (VList (repeat (VBytes []) (Z.to_nat n))) /\ size_fields (m_fields m) = n.
Proof.
  intros Hs Hm Hn. set (p := [0;0;0;0] ++ [254] ++ le_bytes 4 n).
  assert (zlen p = 9) as Hp by (unfold p; rewrite !zlen_app, zlen_le_bytes; reflexivity).
  exists (magic ++ pad_command (bs (mt_command t_getblocks)) ++ [9;0;0;0] ++ ztake 4 (sha256d sha256 p) ++ p ++ []).
  exists (mk_message t_getblocks [("version", VInt 0); ("block_locator_hashes", VList (repeat (VBytes []) (Z.to_nat n))); ("hash_stop", VBytes [])]).
  assert (fields_parse (mt_props t_getblocks) 0 p = Ok (9 + 32 * n + 32, [("version", VInt 0); ("block_locator_hashes", VList (repeat (VBytes []) (Z.to_nat n))); ("hash_stop", VBytes [])])) as F.
  { unfold t_getblocks, mt_props. cbn [fields_parse].
    rewrite (eq_refl : zdrop 0 p = p). change (parse (FNumber FI false false) p) with (Ok (4, VInt 0)).
    cbn iota beta. replace (0 + 4) with 4 by reflexivity. rewrite (eq_refl : zdrop 4 p = [254] ++ le_bytes 4 n).
    assert (parse (FArray (FBytes 32) (Some 1) None) ([254] ++ le_bytes 4 n) = Ok (5 + 32 * n, VList (repeat (VBytes []) (Z.to_nat n)))) as E.
    { transitivity (let! (off, l) := parse_var_set (parse (FBytes 32)) ([254] ++ le_bytes 4 n) in Ok (off, VList l)); [reflexivity|]. unfold parse_var_set. assert (varint_parse ([254] ++ le_bytes 4 n) = Ok (5, n)) as ->.
      { unfold varint_parse. cbn [app]. change (254 =? 253) with false. change (254 =? 254) with true. cbn iota.
        assert (slice 1 5 (254 :: le_bytes 4 n) = le_bytes 4 n) as ->. { change (254 :: le_bytes 4 n) with ([254] ++ le_bytes 4 n). rewrite <- (app_nil_r (le_bytes 4 n)) at 1. apply slice_app_mid; [reflexivity|now rewrite zlen_le_bytes]. }
        rewrite (struct_unpack_pack FI false n); [reflexivity|]. apply (struct_pack_in FI false n). cbn. lia. }
      cbn [bind]. rewrite empty_items; [|rewrite zlen_app, zlen_le_bytes; cbn; lia|lia]. cbn [bind]. rewrite Z2Nat.id by lia. reflexivity. }
    rewrite E. cbn [parse]. assert (zdrop (4 + (5 + 32 * n)) p = []) as -> by (apply zlen_0_nil; rewrite zlen_zdrop by lia; lia).
    cbn [bind]. f_equal. f_equal. lia. }
  split; [|split; [|split; [reflexivity|split; [reflexivity|]]]].
  - rewrite !zlen_app, zlen_ztake, Hm, Hp by lia. unfold sha256d. pose proof (Hs (sha256 p)). rewrite Z.min_l by lia. reflexivity.
  - rewrite (msg_parse_frame sha256 Hs t_getblocks magic p [9;0;0;0] [] getblocks_registered Hm); [rewrite F; reflexivity|rewrite Hp; reflexivity].
  - cbn [m_fields size_fields]. rewrite size_list. assert (forall k, size_items (repeat (VBytes []) k) = Z.of_nat k) as E.
    { induction k as [|k IH]; [reflexivity|]. cbn [repeat size_items]. rewrite IH. change (size (VBytes [])) with 0. lia. }
    rewrite E. change (size (VBytes [])) with 0. change (size (VInt 0)) with 0. lia.
Qed.
Example C138_applies : let p := [1] ++ le_bytes 4 2 ++ repeat 7 32 in
  let data := ex_magic ++ pad_command (bs "inv") ++ le_bytes 4 37 ++ ztake 4 (ex_sha (ex_sha p)) ++ p in
  match msg_parse ex_sha data ex_magic with
  | Ok m => ~ In (mt_command (m_type m)) hash_lists /\ size_fields (m_fields m) = 33 /\ zlen data - 24 = 37
  | Raise _ => False
  end.
Proof. vm_compute. split; [|split; reflexivity]. intros [H|[H|[H|[]]]]; discriminate H. Qed.

(** ** Assumptions *)

Print Assumptions C138_bounded_partial.
Print Assumptions C138_bounded_refuted.
