(** C108 and C109: hashes of received transactions and headers; the header and
    the message of one block. *)
From Coq Require Import String ZArith List Lia Bool.
From Verif Require Import PyBase PyVal FormatModel FormatSpec FormatProofs FormatProofs2 MessagesModel MessagesProofs WireSpec WireProofs LogProofs NodeModel BlockModel.
Import ListNotations.
Open Scope string_scope.
Open Scope list_scope.
Open Scope Z_scope.

Lemma wire_ind' (P : wire -> Prop) : (forall n, P (Int n)) -> (forall n, P (IntBE n)) -> P Compact -> (forall n, P (Raw n)) -> P VarBytes -> P Ip ->
  (forall w, P w -> P (Vec w)) -> (forall l, Forall (fun e => P (snd e)) l -> P (Rec l)) -> forall w, P w.
Proof.
  intros H1 H2 H3 H4 H5 H6 H7 H8. fix IH 1. intros [n|n| |n| | |w|l]; [apply H1|apply H2|exact H3|apply H4|exact H5|exact H6|apply H7; apply IH|].
  apply H8. induction l as [|(k, w) l IHl]; constructor; [apply IH|exact IHl].
Qed.

Section Functional.
  Variable S : Z -> bytes -> Prop.
  Variable I : text -> bytes -> Prop.
  Hypothesis SF : forall z a b, S z a -> S z b -> a = b.
  Hypothesis IF : forall t a b, I t a -> I t b -> a = b.
  Lemma fields_fun l : Forall (fun e => forall v a b, encodes S I (snd e) v a -> encodes S I (snd e) v b -> a = b) l ->
    forall fs a b, encodes_fields S I l fs a -> encodes_fields S I l fs b -> a = b.
  Proof.
    induction 1 as [|(k, w) l Hw _ IH]; intros fs a b; cbn [encodes_fields]; [congruence|].
    intros (x & a1 & a2 & A & A1 & A2 & ->) (y & b1 & b2 & B & B1 & B2 & ->). rewrite A in B. injection B as <-. f_equal; [exact (Hw _ _ _ A1 B1)|exact (IH _ _ _ A2 B2)].
  Qed.
  Lemma encodes_fun w : forall v a b, encodes S I w v a -> encodes S I w v b -> a = b.
  Proof.
    induction w using wire_ind'; intros v a b A B.
    - destruct A as (x & A & ->), B as (y & B & ->). congruence.
    - destruct A as (x & A & ->), B as (y & B & ->). congruence.
    - destruct A as (x & A & Sa), B as (y & B & Sb). assert (x = y) as -> by congruence. eauto.
    - destruct A as (A & _), B as (B & _). congruence.
    - destruct A as (x & p & A & Sa & ->), B as (y & q & B & Sb & ->). assert (x = y) as -> by congruence. f_equal. eauto.
    - destruct A as (x & A & Ia), B as (y & B & Ib). assert (x = y) as -> by congruence. eauto.
    - destruct A as (x & p & xs & A & Sa & Fa & ->), B as (y & q & ys & B & Sb & Fb & ->).
      assert (x = y) as -> by (destruct A, B; congruence). f_equal; [eauto|]. f_equal. clear - IHw Fa Fb. revert ys Fb. induction Fa as [|v s l ls E _ IH]; intros ys Fb; inversion Fb; subst; [reflexivity|]. f_equal; eauto.
    - pose proof A as (c & fs & -> & _). apply encodes_rec in A. apply encodes_rec in B. exact (fields_fun l H fs a b A B).
  Qed.
  Lemma encodes_fields_fun l fs a b : encodes_fields S I l fs a -> encodes_fields S I l fs b -> a = b.
  Proof. apply fields_fun. apply Forall_forall. intros e _. apply encodes_fun. Qed.
End Functional.

(** The size form the library writes: one byte below 253, three below 65535,
    five below 2^32-1, nine from there on. *)
Definition own_size (z : Z) (s : bytes) : Prop :=
  (0 <= z < 253 /\ s = [z]) \/ (253 <= z < 65535 /\ s = 0xfd :: le_bytes 2 z) \/
  (65535 <= z < 2 ^ 32 - 1 /\ s = 0xfe :: le_bytes 4 z) \/ (2 ^ 32 - 1 <= z < 2 ^ 64 /\ s = 0xff :: le_bytes 8 z).
Lemma own_fun z a b : own_size z a -> own_size z b -> a = b.
Proof. unfold own_size. intros [(A & ->)|[(A & ->)|[(A & ->)|(A & ->)]]] [(B & ->)|[(B & ->)|[(B & ->)|(B & ->)]]]; try lia; reflexivity. Qed.
Lemma own_binary z b : varint_binary z = Ok b -> own_size z b.
Proof.
  unfold varint_binary, own_size. destruct (Z.ltb_spec z 0xfd) as [L|L].
  - intro H. apply struct_pack_ok in H. destruct H as (R & ->). cbn in R. left. split; [lia|]. cbn. now rewrite Z.mod_small by lia.
  - right. destruct (Z.ltb_spec z 0xffff) as [L2|L2]; [|destruct (Z.ltb_spec z 0xffffffff) as [L3|L3]]; bind_inv H; inv H; apply struct_pack_ok in H0; destruct H0 as [R ->]; cbn in R.
    + left. split; [lia|reflexivity].
    + right. left. split; [lia|reflexivity].
    + right. right. split; [lia|reflexivity].
Qed.
(** It is the shortest but for two values. *)
Lemma own_canonical z s : z <> 65535 -> z <> 2 ^ 32 - 1 -> own_size z s <-> canonical_size z s.
Proof.
  intros N1 N2. split.
  - intros [(A & ->)|[(A & ->)|[(A & ->)|(A & ->)]]]; (split; [unfold compact_size; first [left; split; [lia|reflexivity]|right; left; split; [lia|reflexivity]|right; right; left; split; [lia|reflexivity]|right; right; right; split; [lia|reflexivity]]|]);
    intros b' [(B & ->)|[(B & ->)|[(B & ->)|(B & ->)]]]; try lia; rewrite ?zlen_cons, ?zlen_le_bytes; change (zlen []) with 0; lia.
  - intros (C & M).
    assert (forall s', compact_size z s' -> zlen s <= zlen s') as M' by exact M. clear M.
    destruct (Z_lt_le_dec z 253) as [L|L].
    { assert (0 <= z) by (destruct C as [(B & _)|[(B & _)|[(B & _)|(B & _)]]]; lia). specialize (M' [z] ltac:(left; split; [lia|reflexivity])). rewrite zlen_cons in M'. change (zlen []) with 0 in M'.
      destruct C as [(B & ->)|[(B & ->)|[(B & ->)|(B & ->)]]]; rewrite ?zlen_cons, ?zlen_le_bytes in M'; try lia. left. split; [lia|reflexivity]. }
    destruct (Z_lt_le_dec z (2 ^ 16)) as [L2|L2].
    { specialize (M' (0xfd :: le_bytes 2 z) ltac:(right; left; split; [lia|reflexivity])). rewrite zlen_cons, zlen_le_bytes in M'.
      destruct C as [(B & ->)|[(B & ->)|[(B & ->)|(B & ->)]]]; rewrite ?zlen_cons, ?zlen_le_bytes in M'; try lia. right. left. split; [lia|reflexivity]. }
    destruct (Z_lt_le_dec z (2 ^ 32)) as [L3|L3].
    { specialize (M' (0xfe :: le_bytes 4 z) ltac:(right; right; left; split; [lia|reflexivity])). rewrite zlen_cons, zlen_le_bytes in M'.
      destruct C as [(B & ->)|[(B & ->)|[(B & ->)|(B & ->)]]]; rewrite ?zlen_cons, ?zlen_le_bytes in M'; try lia. right. right. left. split; [lia|reflexivity]. }
    destruct C as [(B & ->)|[(B & ->)|[(B & ->)|(B & ->)]]]; try lia. right. right. right. split; [lia|reflexivity].
Qed.

Definition ip_bytes (t : text) (a : bytes) : Prop := ip_binary (VStr t) = Ok a.
Definition any_size (z : Z) (s : bytes) : Prop := compact_size z s /\ hd 0 s <> 0xff.

(** Reading documented bytes and writing the values again. *)
Lemma read_write ps fs b rest : wf_fts ps -> NoDup (map fst ps) -> defaults_oks ps -> wt_fields ps fs -> canon_fields ps fs = fs ->
  wf_bytes b -> encodes_fields any_size ip_bytes (layout_of ps) fs b ->
  fields_parse ps 0 (b ++ rest) = Ok (zlen b, fs) /\
  exists b', fields_binary ps fs = Ok b' /\ encodes_fields own_size ip_bytes (layout_of ps) fs b' /\
    (b' = b <-> encodes_fields own_size ip_bytes (layout_of ps) fs b).
Proof.
  intros W N D T C Wb E. pose proof (fields_reads ps fs b rest W N T E) as R. rewrite C in R. split; [exact R|].
  pose proof (fields_reads ps fs b [] W N T E) as R0. rewrite app_nil_r, C in R0.
  destruct (fields_back ps ltac:(apply Forall_forall; intros e _; apply parse_back) W N D b 0 _ _ Wb R0) as (_ & b' & B). exists b'. split; [exact B|].
  assert (encodes_fields own_size ip_bytes (layout_of ps) fs b') as O by (refine (fields_encodes_by own_size own_binary ps fs b' W N T B)).
  split; [exact O|]. split; [intros <-; exact O|]. intro O'. refine (encodes_fields_fun own_size ip_bytes own_fun _ _ _ _ _ O O'). unfold ip_bytes. congruence.
Qed.
Lemma txn_props : wf_fts Txn_props /\ NoDup (map fst Txn_props) /\ defaults_oks Txn_props /\ layout_of Txn_props = w_tx.
Proof.
  split; [cbn; intuition (try lia; try congruence; repeat constructor; cbn; intuition congruence)|]. split; [cbn; repeat constructor; cbn; intuition congruence|]. split; [cbn; tauto|reflexivity].
Qed.
Lemma header_props : wf_fts BlockHeader_props /\ NoDup (map fst BlockHeader_props) /\ defaults_oks BlockHeader_props /\ layout_of BlockHeader_props = w_header80 ++ [("txn_count", Compact)].
Proof.
  split; [cbn; intuition lia|]. split; [cbn; repeat constructor; cbn; intuition congruence|]. split; [cbn; tauto|reflexivity].
Qed.
Section Weaken.
  Variables S S' : Z -> bytes -> Prop.
  Variable I : text -> bytes -> Prop.
  Hypothesis SS : forall z s, S z s -> S' z s.
  Lemma fields_weaken l : Forall (fun e => forall v b, encodes S I (snd e) v b -> encodes S' I (snd e) v b) l ->
    forall fs b, encodes_fields S I l fs b -> encodes_fields S' I l fs b.
  Proof.
    induction 1 as [|(k, w) l Hw _ IH]; intros fs b; cbn [encodes_fields]; [auto|]. intros (x & b1 & b2 & A & B & C & D). exists x, b1, b2. repeat split; auto.
  Qed.
  Lemma encodes_weaken w : forall v b, encodes S I w v b -> encodes S' I w v b.
  Proof.
    induction w using wire_ind'; intros v b A; try exact A.
    - destruct A as (x & A & Sa). exists x. auto.
    - destruct A as (x & p & A & Sa & ->). exists x, p. auto.
    - destruct A as (x & p & xs & A & Sa & Fa & ->). exists x, p, xs. repeat split; auto. clear - IHw Fa. induction Fa; constructor; auto.
    - pose proof A as (c & fs & -> & _). apply encodes_rec in A. apply encodes_rec. now apply fields_weaken.
  Qed.
  Lemma encodes_fields_weaken l fs b : encodes_fields S I l fs b -> encodes_fields S' I l fs b.
  Proof. apply fields_weaken. apply Forall_forall. intros e _. apply encodes_weaken. Qed.
End Weaken.
Lemma no_hash ps fs : wt_fields ps fs -> ~ In "__hash" (map fst ps) -> assoc "__hash" fs = None.
Proof.
  revert fs. induction ps as [|(k, t) ps IH]; intros [|(k', x) fs] H N; cbn in H; try contradiction; [reflexivity|]. destruct H as (-> & _ & H). cbn [map fst In] in N. cbn [assoc].
  destruct (String.eqb_spec "__hash" k); [subst; tauto|]. apply IH; tauto.
Qed.

(** ** C108 *)

(** The bytes [b] of a transaction as documented - in any but the nine-byte
    form of sizes - are read, and the hash is that of the bytes received
    exactly if these use the library's own form of sizes. *)
Theorem C108_txn : forall sha256d fs b rest,
  wt_fields Txn_props fs -> canon_fields Txn_props fs = fs -> wf_bytes b -> encodes_fields any_size ip_bytes w_tx fs b ->
  parse FtTxn (b ++ rest) = Ok (zlen b, VObj "Txn" fs) /\
  exists b', fst (txn_hash sha256d fs) = Ok (VBytes (sha256d b')) /\
    (b' = b <-> encodes_fields own_size ip_bytes w_tx fs b).
Proof.
  intros sha fs b rest T C Wb E. destruct txn_props as (W & N & D & L). rewrite <- L in E.
  destruct (read_write Txn_props fs b rest W N D T C Wb E) as (R & b' & B & _ & X). rewrite L in X. split.
  - unfold FtTxn. rewrite parse_compound, R. reflexivity.
  - exists b'. split; [|exact X]. unfold txn_hash, cached_hash. rewrite (no_hash _ _ T); [now rewrite B|]. cbn. intuition congruence.
Qed.
(** The usual case: shortest sizes, none 65535 or above 2^32-2. *)
Theorem C108_txn_partial : forall sha256d fs b rest,
  wt_fields Txn_props fs -> canon_fields Txn_props fs = fs -> wf_bytes b ->
  encodes_fields (fun z s => canonical_size z s /\ z <> 65535 /\ z < 2 ^ 32 - 1) ip_bytes w_tx fs b ->
  parse FtTxn (b ++ rest) = Ok (zlen b, VObj "Txn" fs) /\ fst (txn_hash sha256d fs) = Ok (VBytes (sha256d b)).
Proof.
  intros sha fs b rest T C Wb E. destruct (C108_txn sha fs b rest T C Wb) as (R & b' & H & X).
  - refine (encodes_fields_weaken _ _ _ _ _ _ _ E). intros z s (Cn & N1 & N2). split; [apply Cn|].
    apply own_canonical in Cn; [|exact N1|lia]. destruct Cn as [(A & ->)|[(A & ->)|[(A & ->)|(A & ->)]]]; cbn [hd]; lia.
  - split; [exact R|]. rewrite H. do 3 f_equal. apply X. refine (encodes_fields_weaken _ _ _ _ _ _ _ E). intros z s (Cn & N1 & N2). apply own_canonical; [exact N1|lia|exact Cn].
Qed.
(** A header: the hash is always that of the first 80 bytes received. *)
Theorem C108_header : forall sha256d fs b rest,
  wt_fields BlockHeader_props fs -> canon_fields BlockHeader_props fs = fs -> wf_bytes b ->
  encodes_fields any_size ip_bytes (w_header80 ++ [("txn_count", Compact)]) fs b ->
  parse FtBlockHeader (b ++ rest) = Ok (zlen b, VObj "BlockHeader" fs) /\
  fst (header_hash sha256d fs) = Ok (VBytes (sha256d (ztake 80 b))).
Proof.
  intros sha fs b rest T C Wb E. destruct header_props as (W & N & D & L). rewrite <- L in E.
  destruct (read_write BlockHeader_props fs b rest W N D T C Wb E) as (R & b' & B & O & X). rewrite L in E, O. split.
  - unfold FtBlockHeader. rewrite parse_compound, R. reflexivity.
  - unfold header_hash, cached_hash. rewrite (no_hash _ _ T); [|cbn; intuition congruence]. rewrite B. cbn [fst]. do 3 f_equal.
    assert (forall S a, encodes_fields S ip_bytes (w_header80 ++ [("txn_count", Compact)]) fs a -> exists h c, a = h ++ c /\ zlen h = 80 /\ encodes_fields (fun _ _ => False) ip_bytes w_header80 fs h) as Sp.
    { clear. intros S a H. cbn [w_header80 app encodes_fields] in H.
      destruct H as (x1 & b1 & ? & A1 & B1 & (x2 & b2 & ? & A2 & B2 & (x3 & b3 & ? & A3 & B3 & (x4 & b4 & ? & A4 & B4 & (x5 & b5 & ? & A5 & B5 & (x6 & b6 & c & A6 & B6 & _ & ->) & ->) & ->) & ->) & ->) & ->).
      exists (b1 ++ b2 ++ b3 ++ b4 ++ b5 ++ b6), c. split; [now rewrite <- !app_assoc|]. cbn [encodes] in *. split.
      - destruct B1 as (? & _ & ->), B2 as (_ & L2), B3 as (_ & L3), B4 as (? & _ & ->), B5 as (? & _ & ->), B6 as (? & _ & ->). rewrite !zlen_app, !zlen_le_bytes. lia.
      - cbn [w_header80 encodes_fields]. exists x1, b1. eexists. split; [exact A1|]. split; [exact B1|]. split; [|reflexivity]. exists x2, b2. eexists. split; [exact A2|]. split; [exact B2|]. split; [|reflexivity].
        exists x3, b3. eexists. split; [exact A3|]. split; [exact B3|]. split; [|reflexivity]. exists x4, b4. eexists. split; [exact A4|]. split; [exact B4|]. split; [|reflexivity].
        exists x5, b5. eexists. split; [exact A5|]. split; [exact B5|]. split; [|reflexivity]. exists x6, b6, []. split; [exact A6|]. split; [exact B6|]. split; [reflexivity|]. now rewrite app_nil_r. }
    destruct (Sp _ _ O) as (h' & c' & -> & L' & E'). destruct (Sp _ _ E) as (h & c & -> & Lh & Eh). rewrite (ztake_app_exact h' c' 80 (eq_sym L')), (ztake_app_exact h c 80 (eq_sym Lh)).
    refine (encodes_fields_fun _ _ _ _ _ _ _ _ E' Eh); [tauto|]. unfold ip_bytes. congruence.
Qed.

(** A transaction whose input count is written with three bytes is accepted,
    under another hash than that of its bytes. *)
Definition hx_txn (count : bytes) : bytes :=
  le_bytes 4 1 ++ count ++ repeat 7 32 ++ le_bytes 4 0 ++ [2; 5; 6] ++ le_bytes 4 9 ++ [1] ++ le_bytes 8 50 ++ [1; 3] ++ le_bytes 4 0.
Theorem C108_long_form_refuted : exists fs b', parse FtTxn (hx_txn [0xfd; 1; 0]) = Ok (zlen (hx_txn [0xfd; 1; 0]), VObj "Txn" fs) /\
  b' <> hx_txn [0xfd; 1; 0] /\ forall sha256d, fst (txn_hash sha256d fs) = Ok (VBytes (sha256d b')).
Proof.
  eexists. exists (hx_txn [1]). split; [vm_compute; reflexivity|]. split; [vm_compute; discriminate|]. intro sha. cbv -[hx_txn sha256d]. reflexivity.
Qed.
Example C108_applies : exists fs, parse FtTxn (hx_txn [1]) = Ok (zlen (hx_txn [1]), VObj "Txn" fs) /\
  wt_fields Txn_props fs /\ canon_fields Txn_props fs = fs /\ wf_bytes (hx_txn [1]) /\ fields_binary Txn_props fs = Ok (hx_txn [1]).
Proof.
  eexists. split; [vm_compute; reflexivity|]. split; [|split; [vm_compute; reflexivity|split; [|vm_compute; reflexivity]]].
  - cbn. repeat (first [lia|split|constructor|exact I|(unfold is_byte; lia)]).
  - unfold hx_txn. repeat (apply Forall_app; split); try apply wf_le_bytes; repeat constructor; unfold is_byte; lia.
Qed.

(** A transaction with a script of 65535 bytes, written as documented with the
    shortest sizes, gets another hash than that of its bytes. *)
Definition hx_fields (s : bytes) : list (string * pyval) :=
  [("version", VInt 1);
   ("tx_in", VList [VObj "TxnIn" [("previous_output", VObj "OutPoint" [("hash", VBytes (repeat 7 32)); ("index", VInt 0)]);
                                  ("signature_script", VBytes s); ("sequence", VInt 9)]]);
   ("tx_out", VList [VObj "TxnOut" [("value", VInt 50); ("pk_script", VBytes [3])]]); ("lock_time", VInt 0)].
Definition hx_bytes (size s : bytes) : bytes :=
  le_bytes 4 1 ++ [1] ++ (repeat 7 32 ++ le_bytes 4 0 ++ (size ++ s) ++ le_bytes 4 9) ++ [1] ++ (le_bytes 8 50 ++ [1; 3]) ++ le_bytes 4 0.
Lemma canonical_1 : canonical_size 1 [1].
Proof. split; [left; split; [lia|reflexivity]|]. intros b' [(_ & ->)|[(_ & ->)|[(_ & ->)|(_ & ->)]]]; rewrite ?zlen_cons, ?zlen_le_bytes; change (zlen []) with 0; lia. Qed.
Lemma hx_encodes (S : Z -> bytes -> Prop) s p : S 1 [1] -> S (zlen s) p -> encodes_fields S ip_bytes w_tx (hx_fields s) (hx_bytes p s).
Proof.
  intros S1 Sp. unfold hx_bytes, hx_fields, w_tx. cbn [encodes_fields].
  exists (VInt 1), (le_bytes 4 1). eexists. split; [reflexivity|]. split; [exists 1; split; reflexivity|]. split; [|reflexivity].
  eexists. exists ([1] ++ (repeat 7 32 ++ le_bytes 4 0 ++ (p ++ s) ++ le_bytes 4 9)), ([1] ++ (le_bytes 8 50 ++ [1; 3]) ++ le_bytes 4 0). split; [reflexivity|]. split.
  { cbn [encodes]. eexists. exists [1], [repeat 7 32 ++ le_bytes 4 0 ++ (p ++ s) ++ le_bytes 4 9]. split; [left; reflexivity|]. split; [exact S1|]. split; [|cbn [concat]; now rewrite app_nil_r].
    constructor; [|constructor]. apply encodes_rec. cbn [encodes_fields]. eexists. exists (repeat 7 32 ++ le_bytes 4 0), ((p ++ s) ++ le_bytes 4 9). split; [reflexivity|]. split.
    { apply encodes_rec. cbn [encodes_fields]. eexists. exists (repeat 7 32). eexists. split; [reflexivity|]. split; [split; reflexivity|]. split; [|reflexivity].
      eexists. exists (le_bytes 4 0), []. split; [reflexivity|]. split; [exists 0; split; reflexivity|]. split; [reflexivity|]. now rewrite app_nil_r. }
    split; [|now rewrite <- !app_assoc]. eexists. exists (p ++ s). eexists. split; [reflexivity|]. split; [exists s, p; repeat split; assumption|]. split; [|reflexivity].
    eexists. exists (le_bytes 4 9), []. split; [reflexivity|]. split; [exists 9; split; reflexivity|]. split; [reflexivity|]. now rewrite app_nil_r. }
  split; [|now rewrite <- !app_assoc]. eexists. exists ([1] ++ (le_bytes 8 50 ++ [1; 3])), (le_bytes 4 0). split; [reflexivity|]. split.
  { cbn [encodes]. eexists. exists [1], [le_bytes 8 50 ++ [1; 3]]. split; [left; reflexivity|]. split; [exact S1|]. split; [|cbn [concat]; now rewrite app_nil_r].
    constructor; [|constructor]. apply encodes_rec. cbn [encodes_fields]. eexists. exists (le_bytes 8 50). eexists. split; [reflexivity|]. split; [exists 50; split; reflexivity|]. split; [|reflexivity].
    eexists. exists ([1] ++ [3]), []. split; [reflexivity|]. split; [exists [3], [1]; split; [reflexivity|]; split; [exact S1|reflexivity]|]. split; reflexivity. }
  split; [|now rewrite <- !app_assoc]. eexists. exists (le_bytes 4 0), []. split; [reflexivity|]. split; [exists 0; split; reflexivity|]. split; [reflexivity|]. now rewrite app_nil_r.
Qed.
Lemma some_bytes z : 0 <= z -> exists s, zlen s = z /\ wf_bytes s.
Proof.
  intro Hz. exists (repeat 0 (Z.to_nat z)). split; [rewrite zlen_repeat; lia|].
  apply Forall_forall. intros x Hx. apply repeat_spec in Hx. subst x. unfold is_byte. lia.
Qed.
Theorem C108_shortest_refuted : exists fs b b', encodes_fields canonical_size ip_bytes w_tx fs b /\
  parse FtTxn b = Ok (zlen b, VObj "Txn" fs) /\ b' <> b /\ forall sha256d, fst (txn_hash sha256d fs) = Ok (VBytes (sha256d b')).
Proof.
  destruct (some_bytes 65535 ltac:(lia)) as (s & L & Ws).
  assert (compact_size 65535 (0xfd :: le_bytes 2 65535)) as C by (right; left; split; [lia|reflexivity]).
  assert (canonical_size 65535 (0xfd :: le_bytes 2 65535)) as Cn.
  { split; [exact C|]. intros b' [(X & _)|[(_ & ->)|[(_ & ->)|(_ & ->)]]]; [lia| | |]; rewrite !zlen_cons, !zlen_le_bytes; lia. }
  exists (hx_fields s), (hx_bytes (0xfd :: le_bytes 2 65535) s).
  assert (wt_fields Txn_props (hx_fields s)) as T.
  { cbn. repeat (first [exact Ws|lia|split|constructor|exact I|(unfold is_byte; lia)]). }
  destruct (C108_txn (fun x => x) (hx_fields s) (hx_bytes (0xfd :: le_bytes 2 65535) s) []) as (R & b' & H & X).
  - exact T.
  - reflexivity.
  - assert (wf_bytes (0xfd :: le_bytes 2 65535)) as W1 by (apply Forall_cons; [unfold is_byte; lia|apply wf_le_bytes]).
    assert (forall x, 0 <= x < 256 -> wf_bytes [x]) as Wx by (intros x Hx; constructor; [exact Hx|constructor]).
    assert (wf_bytes (repeat 7 32)) as W7 by (apply Forall_forall; intros x Hx; apply repeat_spec in Hx; subst x; unfold is_byte; lia).
    unfold hx_bytes. change [1; 3] with ([1] ++ [3]). repeat (apply wf_bytes_app; split); first [apply wf_le_bytes|exact Ws|exact W1|exact W7|apply Wx; lia].
  - apply hx_encodes; [|rewrite L]; (split; [|cbn [hd]; lia]); [left; split; [lia|reflexivity]|exact C].
  - rewrite app_nil_r in R. exists b'. split; [apply hx_encodes; [exact canonical_1|rewrite L; exact Cn]|]. split; [exact R|].
    unfold txn_hash, cached_hash in *. rewrite (no_hash _ _ T) in * by (cbn; intuition congruence). destruct (fields_binary Txn_props (hx_fields s)) as [w|] eqn:B; [|discriminate]. cbn [fst] in *. assert (w = b') as -> by congruence.
    split; [|reflexivity]. intros ->. destruct txn_props as (W & N & _ & Ly). apply (fields_encodes_by own_size own_binary) in B; [|assumption..]. rewrite Ly in B.
    assert (encodes_fields own_size ip_bytes w_tx (hx_fields s) (hx_bytes (0xfe :: le_bytes 4 65535) s)) as O. { apply hx_encodes; [left; split; [lia|reflexivity]|rewrite L; right; right; left; split; [lia|reflexivity]]. }
    pose proof (encodes_fields_fun own_size ip_bytes own_fun ltac:(unfold ip_bytes; congruence) _ _ _ _ B O) as Q. apply (f_equal zlen) in Q. unfold hx_bytes in Q. rewrite !zlen_app, !zlen_cons, !zlen_le_bytes in Q. lia.
Qed.

(** ** C109: one block, its message and its header *)

Lemma block_type : mt_props (type_of "Block") = removelast BlockHeader_props ++ [("txns", FArray FtTxn None None)].
Proof. vm_compute. reflexivity. Qed.
Lemma fields_binary_step k t r fs p : fields_binary ((k, t) :: r) fs = Ok p ->
  exists x b1 b2, assoc k fs = Some x /\ binary t x = Ok b1 /\ fields_binary r fs = Ok b2 /\ p = b1 ++ b2.
Proof. cbn [fields_binary]. destruct (assoc k fs) as [x|]; [|discriminate]. intro H. bind_inv H. bind_inv H. inv H. eauto 10. Qed.
Lemma bytes_32 v y b : bytes_validate 32 v = Some y -> binary (FBytes 32) y = Ok b -> zlen b = 32.
Proof. unfold bytes_validate. destruct v; try discriminate. destruct (Z.eqb_spec (zlen s) 32); [|discriminate]. intro H. injection H as <-. cbn. intro H. injection H as <-. assumption. Qed.
Lemma number_4 af y b : binary (FNumber FI false af) y = Ok b -> zlen b = 4.
Proof. cbn [binary]. intro H. apply num_code in H. destruct H as (z & _ & H). now apply zlen_pack in H. Qed.
(** If a block can be sent, its header can be made, counts its transactions,
    and starts with the first 80 bytes of the block message's payload, whose
    double SHA-256 is its hash. *)
Theorem C109_agree : forall sha256d b m p,
  block_from_block b = Ok m -> fields_binary (mt_props (m_type m)) (m_fields m) = Ok p -> 
  exists l fs h, (bo_transactions b = VList l \/ bo_transactions b = VTuple l) /\
    header_from_block b = Ok (VObj "BlockHeader" fs) /\ assoc "txn_count" fs = Some (VInt (zlen l)) /\
    (forall k, In k ["version"; "prev_block"; "merkle_root"; "timestamp"; "bits"; "nonce"] -> assoc k fs = assoc k (m_fields m)) /\
    fields_binary BlockHeader_props fs = Ok h /\ ztake 80 h = ztake 80 p /\
    fst (header_hash sha256d fs) = Ok (VBytes (sha256d (ztake 80 p))).
Proof.
  intros sha [v pr mr ts bi no tx] m p H P. unfold block_from_block, new_message in H. unfold header_from_block. cbn [bo_version bo_previous_hash bo_merkle_root bo_timestamp bo_bits bo_nonce bo_transactions] in *.
  rewrite block_type in H. unfold construct in H. cbn [existsb map fst BlockHeader_props removelast app zip] in H.
  match type of H with context [negb ?c] => change (negb c) with false in H end. cbv iota in H. bind_inv H.
  cbn [validate_props assoc String.eqb Ascii.eqb Bool.eqb validate bind] in H0.
  destruct (num_validate FI false v) as [v'|] eqn:Ev; [|discriminate]. destruct (bytes_validate 32 pr) as [pr'|] eqn:Ep; [|discriminate]. destruct (bytes_validate 32 mr) as [mr'|] eqn:Em; [|discriminate].
  destruct (num_validate FI true ts) as [ts'|] eqn:Et; [|discriminate]. destruct (num_validate FI false bi) as [bi'|] eqn:Eb; [|discriminate]. destruct (num_validate FI false no) as [no'|] eqn:En; [|discriminate].
  assert (exists l l', (tx = VList l \/ tx = VTuple l) /\ zlen l' = zlen l /\
    x = VObj (mt_id (type_of "Block")) [("version", v'); ("prev_block", pr'); ("merkle_root", mr'); ("timestamp", ts'); ("bits", bi'); ("nonce", no'); ("txns", VTuple l')]) as (l & l' & Tx & Ll & ->).
  { match type of H0 with context [let! o := ?t in match o with _ => _ end] => destruct t as [o|] eqn:Ea end; [|discriminate]. cbn [bind] in H0. destruct o as [y|]; [|discriminate]. cbn [bind] in H0.
    assert (x = VObj (mt_id (type_of "Block")) [("version", v'); ("prev_block", pr'); ("merkle_root", mr'); ("timestamp", ts'); ("bits", bi'); ("nonce", no'); ("txns", y)]) as -> by congruence. clear H0.
    assert (exists l, (tx = VList l \/ tx = VTuple l) /\ (let! vs := sequence (map (validate FtTxn) l) in Ok match all_some vs with Some vs => Some (VTuple vs) | None => None end) = Ok (Some y)) as (l & Tx & Es) by (destruct tx; try discriminate; eauto).
    bind_inv Es. destruct (all_some x) as [vs|] eqn:Av; [|discriminate]. injection Es as <-. exists l, vs. split; [exact Tx|]. split; [|reflexivity].
    apply all_some_ok in Av. subst x. apply sequence_ok in H0. assert (forall (A B : Type) (P : A -> B -> Prop) a b, Forall2 P a b -> List.length a = List.length b) as FL by (clear; induction 1; cbn; congruence). apply FL in H0. rewrite !map_length in H0. unfold zlen. now rewrite H0. }
  clear H0. injection H as <-. cbn [m_type m_fields] in *. rewrite block_type in P. cbn [BlockHeader_props removelast app] in P.
  exists l, [("version", v'); ("prev_block", pr'); ("merkle_root", mr'); ("timestamp", ts'); ("bits", bi'); ("nonce", no'); ("txn_count", VInt (zlen l))].
  apply fields_binary_step in P. destruct P as (y1 & b1 & p1 & A1 & B1 & P & ->). injection A1 as <-.
  apply fields_binary_step in P. destruct P as (y2 & b2 & p2 & A2 & B2 & P & ->). injection A2 as <-.
  apply fields_binary_step in P. destruct P as (y3 & b3 & p3 & A3 & B3 & P & ->). injection A3 as <-.
  apply fields_binary_step in P. destruct P as (y4 & b4 & p4 & A4 & B4 & P & ->). injection A4 as <-.
  apply fields_binary_step in P. destruct P as (y5 & b5 & p5 & A5 & B5 & P & ->). injection A5 as <-.
  apply fields_binary_step in P. destruct P as (y6 & b6 & p6 & A6 & B6 & P & ->). injection A6 as <-.
  apply fields_binary_step in P. destruct P as (y7 & b7 & p7 & A7 & B7 & P & ->). injection A7 as <-. clear P.
  cbn [binary] in B7. bind_inv B7. rename x into c. rename H into Hc. clear B7.
  exists (b1 ++ b2 ++ b3 ++ b4 ++ b5 ++ b6 ++ c).
  assert (fields_binary BlockHeader_props [("version", v'); ("prev_block", pr'); ("merkle_root", mr'); ("timestamp", ts'); ("bits", bi'); ("nonce", no'); ("txn_count", VInt (zlen l))] = Ok (b1 ++ b2 ++ b3 ++ b4 ++ b5 ++ b6 ++ c)) as HB.
  { unfold BlockHeader_props. cbn [fields_binary assoc String.eqb Ascii.eqb Bool.eqb]. rewrite B1, B2, B3, B4, B5, B6. cbn [bind binary]. rewrite <- Ll, Hc. cbn [bind]. now rewrite app_nil_r. }
  assert (zlen (b1 ++ b2 ++ b3 ++ b4 ++ b5 ++ b6) = 80) as L80.
  { rewrite !zlen_app, (number_4 _ _ _ B1), (bytes_32 _ _ _ Ep B2), (bytes_32 _ _ _ Em B3), (number_4 _ _ _ B4), (number_4 _ _ _ B5), (number_4 _ _ _ B6). reflexivity. }
  assert (ztake 80 (b1 ++ b2 ++ b3 ++ b4 ++ b5 ++ b6 ++ c) = ztake 80 (b1 ++ b2 ++ b3 ++ b4 ++ b5 ++ b6 ++ b7 ++ p7)) as E80.
  { replace (b1 ++ b2 ++ b3 ++ b4 ++ b5 ++ b6 ++ c) with ((b1 ++ b2 ++ b3 ++ b4 ++ b5 ++ b6) ++ c) by now rewrite <- !app_assoc.
    replace (b1 ++ b2 ++ b3 ++ b4 ++ b5 ++ b6 ++ b7 ++ p7) with ((b1 ++ b2 ++ b3 ++ b4 ++ b5 ++ b6) ++ b7 ++ p7) by now rewrite <- !app_assoc.
    now rewrite !ztake_app_exact by now rewrite L80. }
  split; [exact Tx|]. split.
  { assert (py_len tx = Ok (zlen l)) as -> by (destruct Tx as [->| ->]; reflexivity). cbn [bind]. unfold construct, BlockHeader_props. cbn [existsb map fst app zip].
    match goal with |- context [negb ?c] => change (negb c) with false end. cbv iota. cbn [validate_props assoc String.eqb Ascii.eqb Bool.eqb validate bind]. rewrite Ev, Ep, Em, Et, Eb, En. reflexivity. }
  split; [reflexivity|]. split; [|split; [exact HB|split; [exact E80|]]].
  - intros k Hk. cbn [In] in Hk. repeat (destruct Hk as [<-|Hk]; [reflexivity|]). contradiction.
  - unfold header_hash, cached_hash. cbn [assoc String.eqb Ascii.eqb Bool.eqb]. rewrite HB. cbn [fst]. now rewrite E80.
Qed.
(** The converse needs transaction objects: a header can be made for any list. *)
Definition hx_block (txns : pyval) : block_obj := mk_block (VInt 1) (VBytes (repeat 7 32)) (VBytes (repeat 8 32)) (VFloat (FFin 3 (-1))) (VInt 5) (VInt 6) txns.
Example C109_applies : exists t m p fs, parse FtTxn (hx_txn [1]) = Ok (zlen (hx_txn [1]), t) /\ block_from_block (hx_block (VList [t; t])) = Ok m /\
  fields_binary (mt_props (m_type m)) (m_fields m) = Ok p /\ header_from_block (hx_block (VList [t; t])) = Ok (VObj "BlockHeader" fs) /\
  block_from_block (hx_block (VList [VNone])) = Raise ParameterError.
Proof. do 4 eexists. split; [vm_compute; reflexivity|]. split; [vm_compute; reflexivity|]. split; [vm_compute; reflexivity|]. split; vm_compute; reflexivity. Qed.

(** ** Assumptions *)

Print Assumptions C108_txn.
Print Assumptions C108_txn_partial.
Print Assumptions C108_header.
Print Assumptions C108_long_form_refuted.
Print Assumptions C108_shortest_refuted.
Print Assumptions C109_agree.
