(** Proofs about the text of the log lines. *)
From Coq Require Import String ZArith List Lia Bool.
From Verif Require Import PyBase PyVal FormatModel FormatSpec FormatProofs FormatProofs2 MessagesModel MessagesProofs AlertProofs UtilModel SeedModel NodeModel LogModel LogProofs TextModel.
Import ListNotations.
Open Scope string_scope.
Open Scope list_scope.
Open Scope Z_scope.

(** A printable ASCII character; a text of such characters is on one line. *)
Definition printable (c : Z) : Prop := 32 <= c <= 126.
Definition neat (t : text) : Prop := Forall printable t.
Definition neatb (t : text) : bool := forallb (fun c => (32 <=? c) && (c <=? 126)) t.
Lemma neatb_ok t : neatb t = true -> neat t.
Proof. unfold neatb, neat. intro H. rewrite forallb_forall in H. apply Forall_forall. intros c Hc. specialize (H c Hc). apply andb_true_iff in H. unfold printable. lia. Qed.
Lemma neat_app a b : neat a -> neat b -> neat (a ++ b).
Proof. intros. apply Forall_app. now split. Qed.
Lemma neat_cons c a : printable c -> neat a -> neat (c :: a).
Proof. now constructor. Qed.
Lemma neat_join sep l : neat sep -> Forall neat l -> neat (join_text sep l).
Proof.
  intros S. induction 1 as [|x l Hx Hl IH]; [constructor|]. cbn [join_text]. destruct l; [exact Hx|]. apply neat_app; [exact Hx|]. now apply neat_app.
Qed.
Lemma neat_join_with c l : printable c -> Forall neat l -> neat (join_with c l).
Proof.
  intros S. induction 1 as [|x l Hx Hl IH]; [constructor|]. cbn [join_with]. destruct l; [exact Hx|]. apply neat_app; [exact Hx|]. now apply neat_cons.
Qed.
Lemma neat_digit base d : base = 10 \/ base = 16 -> 0 <= d < base -> printable (digit_char d).
Proof. intros B H. unfold digit_char, printable. destruct (Z.ltb_spec d 10); lia. Qed.
Lemma neat_digits base : base = 10 \/ base = 16 -> forall f x acc, 0 <= x -> neat acc -> neat (digits_aux f base x acc).
Proof.
  intros B. induction f as [|f IH]; intros x acc Hx Ha; [exact Ha|]. cbn [digits_aux]. destruct (Z.ltb_spec x base).
  - apply neat_cons; [apply (neat_digit base); auto|exact Ha].
  - apply IH; [apply Z.div_pos; lia|]. apply neat_cons; [|exact Ha]. apply (neat_digit base); [exact B|]. apply Z.mod_pos_bound. lia.
Qed.
Lemma neat_text_of_int base x : base = 10 \/ base = 16 -> 0 <= x -> neat (text_of_int base x).
Proof. intros. apply neat_digits; auto. constructor. Qed.
Lemma neat_int z : neat (int_text z).
Proof.
  unfold int_text. destruct (Z.ltb_spec z 0); [apply neat_cons; [unfold printable; lia|]|]; apply neat_text_of_int; auto; lia.
Qed.
Lemma neat_hex b : wf_bytes b -> neat (hex_encode b).
Proof.
  induction 1 as [|c r Hc _ IH]; [constructor|]. unfold hex_encode in *. cbn [flat_map]. unfold is_byte in Hc. apply neat_app; [|exact IH].
  assert (0 <= c / 16 < 16) by (split; [apply Z.div_pos; lia|apply Z.div_lt_upper_bound; lia]). pose proof (Z.mod_pos_bound c 16 ltac:(lia)).
  repeat constructor; unfold printable, hex_digit; destruct (Z.ltb_spec (c / 16) 10), (Z.ltb_spec (c mod 16) 10); lia.
Qed.
Lemma wf_neat b : neat b -> wf_bytes b.
Proof. apply Forall_impl. unfold printable, is_byte. lia. Qed.
Lemma neat_repr_byte q c : q = 34 \/ q = 39 -> is_byte c -> neat (repr_byte q c).
Proof.
  intros Q Hc. unfold is_byte in Hc. unfold repr_byte.
  destruct (Z.eqb_spec c q) as [->|]; cbn [orb]; [repeat constructor; lia|]. destruct (Z.eqb_spec c 92) as [->|]; [repeat constructor; lia|].
  destruct (c =? 9); [repeat constructor; lia|]. destruct (c =? 10); [repeat constructor; lia|]. destruct (c =? 13); [repeat constructor; lia|].
  assert (0 <= c / 16 < 16) by (split; [apply Z.div_pos; lia|apply Z.div_lt_upper_bound; lia]). pose proof (Z.mod_pos_bound c 16 ltac:(lia)).
  destruct (Z.ltb_spec c 32), (Z.leb_spec 127 c); cbn [orb];
    (repeat constructor; unfold printable, hex_chr; try lia; destruct (Z.ltb_spec (c / 16) 10), (Z.ltb_spec (c mod 16) 10); lia).
Qed.
Lemma neat_repr b : wf_bytes b -> neat (repr_bytes b).
Proof.
  intro W. unfold repr_bytes. assert (repr_quote b = 34 \/ repr_quote b = 39) as Q by (unfold repr_quote; destruct (_ && _); auto).
  assert (printable (repr_quote b)) by (unfold printable; destruct Q as [-> | ->]; lia).
  apply neat_cons; [unfold printable; lia|]. apply neat_cons; [assumption|]. apply neat_app; [|repeat constructor; unfold printable in *; lia].
  generalize dependent (repr_quote b). intros q Q _. induction W as [|c r Hc _ IH]; [constructor|]. cbn [flat_map]. apply neat_app; [now apply neat_repr_byte|exact IH].
Qed.
Lemma neat_repr_of py2 b : wf_bytes b -> neat (repr_of py2 b).
Proof. intro W. apply neat_repr in W. unfold repr_of. destruct py2; [|exact W]. destruct (repr_bytes b); [exact W|]. now inversion W. Qed.

(** *** Words: the characters of numbers and addresses *)
Definition wordy (c : Z) : Prop := 45 <= c <= 58 \/ 97 <= c <= 102.
Lemma wordy_neat s : Forall wordy s -> neat s.
Proof. apply Forall_impl. unfold wordy, printable. lia. Qed.
Lemma wordy_digit base d : base = 10 \/ base = 16 -> 0 <= d < base -> wordy (digit_char d).
Proof. intros B H. unfold digit_char, wordy. destruct (Z.ltb_spec d 10); lia. Qed.
Lemma wordy_digits base : base = 10 \/ base = 16 -> forall f x acc, 0 <= x -> Forall wordy acc -> Forall wordy (digits_aux f base x acc).
Proof.
  intros B. induction f as [|f IH]; intros x acc Hx Ha; [exact Ha|]. cbn [digits_aux]. destruct (Z.ltb_spec x base).
  - constructor; [apply (wordy_digit base); auto|exact Ha].
  - apply IH; [apply Z.div_pos; lia|]. constructor; [|exact Ha]. apply (wordy_digit base); [exact B|]. apply Z.mod_pos_bound. lia.
Qed.
Lemma wordy_text base x : base = 10 \/ base = 16 -> 0 <= x -> Forall wordy (text_of_int base x).
Proof. intros. apply wordy_digits; auto. Qed.
Lemma wordy_int z : Forall wordy (int_text z).
Proof. unfold int_text. destruct (Z.ltb_spec z 0); [constructor; [unfold wordy; lia|]|]; apply wordy_text; auto; lia. Qed.
Lemma wordy_join c l : wordy c -> Forall (Forall wordy) l -> Forall wordy (join_with c l).
Proof.
  intros S. induction 1 as [|x l Hx Hl IH]; [constructor|]. cbn [join_with]. destruct l; [exact Hx|]. apply Forall_app. split; [exact Hx|]. now constructor.
Qed.
Lemma wordy_be16 : forall s, wf_bytes s -> Forall (Forall wordy) (map (text_of_int 16) (be16s s)).
Proof.
  fix IH 1. intros [|a [|b r]] W; [constructor|constructor|]. cbn [be16s map]. inversion W as [|? ? Ha W1]. inversion W1 as [|? ? Hb W2]. subst. unfold is_byte in *.
  constructor; [apply wordy_text; [auto|lia]|]. exact (IH r W2).
Qed.

(** *** Values as they are parsed *)
(** The values that the parser gives for a field of type [t]. *)
Fixpoint parsed (t : ft) (v : pyval) {struct t} : Prop :=
  match t with
  | FNumber _ _ _ | FVarInt => exists z, v = VInt z
  | FIP => exists s, v = VStr s /\ Forall wordy s
  | FBytes _ | FVarStr => exists s, v = VBytes s /\ wf_bytes s
  | FArray child _ _ => exists l, v = VList l /\ Forall (parsed child) l
  | FCompound c props | FCompoundNoTs c props =>
      exists fs, v = VObj c fs /\
          (fix go ps fs := match ps, fs with
            | [], [] => True
            | (k, vt) :: ps', (k', x) :: fs' => k' = k /\ parsed vt x /\ go ps' fs'
            | _, _ => False
            end) props fs
  | FOptional child d => parsed child v \/ v = d
  end.
Fixpoint parsed_fields (ps : list (string * ft)) (fs : list (string * pyval)) : Prop :=
  match ps, fs with
  | [], [] => True
  | (k, vt) :: ps', (k', x) :: fs' => k' = k /\ parsed vt x /\ parsed_fields ps' fs'
  | _, _ => False
  end.
Lemma parsed_go ps fs :
  (fix go ps fs := match ps, fs with
            | [], [] => True
            | (k, vt) :: ps', (k', x) :: fs' => k' = k /\ parsed vt x /\ go ps' fs'
            | _, _ => False
            end) ps fs <-> parsed_fields ps fs.
Proof.
  revert fs. induction ps as [|(k, vt) r IH]; intros [|(k', x) fs]; cbn; try tauto; specialize (IH fs); tauto.
Qed.
Lemma parsed_compound c ps v : parsed (FCompound c ps) v <-> exists fs, v = VObj c fs /\ parsed_fields ps fs.
Proof. cbn [parsed]. split; intros (fs & -> & H); exists fs; (split; [reflexivity|]); now apply parsed_go. Qed.
Lemma parsed_compoundnots c ps v : parsed (FCompoundNoTs c ps) v <-> exists fs, v = VObj c fs /\ parsed_fields ps fs.
Proof. exact (parsed_compound c ps v). Qed.
Lemma parsed_keys ps : forall fs, parsed_fields ps fs -> map fst fs = map fst ps.
Proof. induction ps as [|(k, t) r IH]; intros [|(k', x) fs]; cbn; try contradiction; [reflexivity|]. intros (-> & _ & H). now rewrite (IH fs H). Qed.
Lemma parsed_assoc ps k t : In (k, t) ps -> NoDup (map fst ps) -> forall fs, parsed_fields ps fs -> exists v, assoc k fs = Some v /\ parsed t v.
Proof.
  induction ps as [|(k0, t0) r IH]; intros H N fs P; [contradiction|].
  cbn [map fst] in N. apply NoDup_cons_iff in N. destruct N as (N1 & N2).
  destruct fs as [|(k', x) fs]; [contradiction|]. cbn [parsed_fields] in P. destruct P as (-> & Hx & Hr).
  destruct H as [E|H].
  - injection E as -> ->. exists x. cbn [assoc]. rewrite String.eqb_refl. auto.
  - destruct (IH H N2 fs Hr) as (v & E & S). exists v. split; [|exact S]. cbn [assoc].
    destruct (String.eqb_spec k k0) as [->|]; [|exact E]. exfalso. apply N1. apply in_map_iff. exists (k0, t). auto.
Qed.
Lemma assoc_absent {A} k (fs : list (string * A)) : ~ In k (map fst fs) -> assoc k fs = None.
Proof. induction fs as [|(k', x) r IH]; intro H; [reflexivity|]. cbn [assoc map fst] in *. destruct (String.eqb_spec k k') as [->|]; [exfalso; apply H; now left|]. apply IH. intro X. apply H. now right. Qed.

Definition parses (t : ft) : Prop := forall data n v, wf_bytes data -> parse t data = Ok (n, v) -> parsed t v.
Lemma items_parsed t : parses t -> forall k data off n l, wf_bytes data -> parse_items (parse t) k data off = Ok (n, l) -> Forall (parsed t) l.
Proof.
  intros Ht. induction k as [|k IH]; intros data off n l Hw H; cbn in H.
  - inv H. constructor.
  - bind_inv H. destruct x as (len, x). bind_inv H. destruct x0 as (off', xs). inv H.
    apply Ht in H0; [|now apply Forall_zdrop]. apply IH in H1; [|assumption]. now constructor.
Qed.
Lemma fields_parsed ps : Forall (fun e => parses (snd e)) ps ->
  forall data off n fs, wf_bytes data -> fields_parse ps off data = Ok (n, fs) -> parsed_fields ps fs.
Proof.
  induction 1 as [|(k, t) r Ht Hr IH]; intros data off n fs Hw H; cbn [fields_parse] in H.
  - inv H. exact Logic.I.
  - destruct (parse t (zdrop off data)) as [(len, x)|] eqn:E; [|discriminate].
    bind_inv H. destruct x0 as (off', xs). inv H.
    apply Ht in E; [|now apply Forall_zdrop]. apply IH in H0; [|assumption]. cbn. auto.
Qed.
Lemma parse_parsed t : parses t.
Proof.
  induction t using ft_ind'; unfold parses; intros data n0 v Hw H0; cbn [parse] in H0.
  - unfold num_parse in H0. bind_inv H0. inv H0. cbn. eauto.
  - bind_inv H0. destruct x as (n', z). inv H0. cbn. eauto.
  - unfold ip_parse in H0. cbn [parsed]. destruct (_ && _).
    + destruct (_ =? 4); inv H0. eexists. split; [reflexivity|]. apply wordy_join; [unfold wordy; lia|].
      assert (wf_bytes (slice 12 16 data)) as W by now apply Forall_slice. induction W as [|c r Hc _ IH]; [constructor|]. cbn [map]. constructor; [|exact IH]. unfold is_byte in Hc. apply wordy_text; [auto|lia].
    + destruct (_ =? 16); inv H0. eexists. split; [reflexivity|]. apply wordy_join; [unfold wordy; lia|]. apply wordy_be16. now apply Forall_ztake.
  - inv H0. cbn. eexists. split; [reflexivity|now apply Forall_ztake].
  - unfold varstr_parse in H0. bind_inv H0. destruct x as (vl, len). inv H0. cbn. eexists. split; [reflexivity|now apply Forall_slice].
  - bind_inv H0. destruct x as (off, l). inv H0. unfold parse_var_set in H. bind_inv H. destruct x as (o, c).
    apply (items_parsed t IHt) in H; [|assumption]. cbn. eauto.
  - change (parse (FCompound c ps) data = Ok (n0, v)) in H0.
    rewrite parse_compound in H0. bind_inv H0. destruct x as (off, fs). inv H0.
    apply fields_parsed in H1; auto. apply parsed_compound. eauto.
  - change (parse (FCompoundNoTs c ps) data = Ok (n0, v)) in H0.
    rewrite parse_compoundnots in H0. bind_inv H0. destruct x as (off, fs). injection H0 as <- <-.
    apply fields_parsed in H1; auto.
    + apply parsed_compoundnots. eauto.
    + apply wf_bytes_app. split; [repeat constructor; unfold is_byte; lia|assumption].
  - cbn [parsed]. destruct (parse t data) as [r|] eqn:E; inv H0.
    + left. exact (IHt _ _ _ Hw E).
    + now right.
Qed.
Lemma message_parsed sha data magic m : wf_bytes data -> msg_parse sha data magic = Ok m ->
  In (m_type m) registry /\ parsed_fields (mt_props (m_type m)) (m_fields m).
Proof.
  intros W H. apply msg_parse_inv in H. destruct H as (_ & _ & _ & R & _ & n & P). split; [exact R|].
  refine (fields_parsed _ _ _ 0 n _ _ P).
  - apply Forall_forall. intros e _. apply parse_parsed.
  - now apply Forall_slice.
Qed.

(** *** Their texts, on Python 3 *)
Ltac nt := repeat first [assumption | apply neat_cons; [unfold printable; lia|] | apply neat_app | (apply neatb_ok; reflexivity) | (apply neatb_ok; assumption)].
(** Names and labels are printable, and defaults are numbers or truth values. *)
Fixpoint named (t : ft) : bool :=
  match t with
  | FArray c _ _ => named c
  | FCompound c ps | FCompoundNoTs c ps =>
      neatb (bs c) && (fix go ps := match ps with [] => true | (k, t) :: r => neatb (bs k) && named t && go r end) ps
  | FOptional c d => match c, d with FNumber _ _ _, VInt _ | FNumber _ _ _, VBool _ => true | _, _ => false end
  | _ => true
  end.
Fixpoint nameds (ps : list (string * ft)) : bool :=
  match ps with [] => true | (k, t) :: r => neatb (bs k) && named t && nameds r end.
Lemma named_go ps : (fix go ps := match ps with [] => true | (k, t) :: r => neatb (bs k) && named t && go r end) ps = nameds ps.
Proof. induction ps as [|(k, t) r IH]; cbn; congruence. Qed.

Section Py3.
Variable sha256 : bytes -> bytes.
Hypothesis sha_bytes : forall x, wf_bytes (sha256 x).
Variable odd : pyval -> text.

Notation ftt := (ft_text false odd).
Notation fst_ := (fields_text false odd).
Definition good_piece (p : piece) : Prop := match p with PText t => neat t | PBytes b => wf_bytes b end.
Lemma neat_render p : good_piece p -> neat (render false p).
Proof. destruct p; cbn; [auto|]. apply (neat_repr_of false). Qed.

Lemma ftt_compound c ps c' fs : ftt (FCompound c ps) (VObj c' fs) =
  let! s := fst_ ps fs in Ok (PText (bs "<" ++ bs c' ++ s ++ bs ">")).
Proof.
  cbn [ft_text]. assert (forall a b : res text, a = b -> (let! s := a in Ok (PText (bs "<" ++ bs c' ++ s ++ bs ">"))) = (let! s := b in Ok (PText (bs "<" ++ bs c' ++ s ++ bs ">")))) as F by (now intros a b ->). apply F. clear F. induction ps as [|(k, t) r IH]; cbn [fields_text]; [reflexivity|]. destruct (assoc k fs); [|reflexivity].
  destruct (ftt t p); cbn [bind]; [|reflexivity]. now rewrite IH.
Qed.
Lemma fields_neat ps : Forall (fun e => named (snd e) = true -> forall v p, parsed (snd e) v -> ftt (snd e) v = Ok p -> good_piece p) ps ->
  nameds ps = true -> forall all fs s, NoDup (map fst all) -> incl ps all -> parsed_fields all fs -> fst_ ps fs = Ok s -> neat s.
Proof.
  induction 1 as [|(k, t) r Ht _ IH]; intros N all fs s D C P H; cbn [fields_text] in H; [inv H; constructor|].
  cbn [nameds] in N. apply andb_true_iff in N. destruct N as (N & N2). apply andb_true_iff in N. destruct N as (N0 & N1).
  destruct (parsed_assoc all k t (C _ (or_introl eq_refl)) D fs P) as (v & E & S). rewrite E in H. bind_inv H. bind_inv H. injection H as <-.
  cbn [snd] in Ht. specialize (Ht N1 v _ S H0). apply neat_render in Ht.
  specialize (IH N2 all fs _ D (fun e He => C e (or_intror He)) P H1).
  nt.
Qed.
Lemma ftt_neat t : wf_ft t -> named t = true -> forall v p, parsed t v -> ftt t v = Ok p -> good_piece p.
Proof.
  induction t using ft_ind'; intros W N v p0 P H0; cbn [ft_text] in H0.
  - destruct P as (z & ->). injection H0 as <-. apply neat_int.
  - destruct P as (z & ->). injection H0 as <-. apply neat_int.
  - destruct P as (s & -> & Hs). injection H0 as <-. exact (wordy_neat s Hs).
  - destruct P as (s & -> & Hs). injection H0 as <-. cbn [good_piece]. apply wf_neat. nt. now apply neat_hex.
  - destruct P as (s & -> & Hs). injection H0 as <-. cbn [good_piece repr_text]. exact (neat_repr_of false s Hs).
  - destruct W as (W & _). cbn [named] in N. destruct P as (l & -> & Hl). bind_inv H0. bind_inv H0. injection H0 as <-. cbn [good_piece].
    nt.
    unfold join_pieces in H1. destruct (_ && _); [discriminate|]. injection H1 as <-. apply neat_join; [apply neatb_ok; reflexivity|].
    revert x H. induction Hl as [|v l Hv _ IH]; intros x H; cbn [map sequence] in H; [inv H; constructor|].
    bind_inv H. bind_inv H. injection H as <-. cbn [map]. constructor; [|now apply IH]. apply neat_render. exact (IHt W N v _ Hv H0).
  - destruct W as (D & W). apply wf_fts_go in W. cbn [named] in N. rewrite named_go in N. apply andb_true_iff in N. destruct N as (N0 & N).
    apply parsed_compound in P. destruct P as (fs & -> & P). change (ftt (FCompound c ps) (VObj c fs) = Ok p0) in H0. rewrite ftt_compound in H0. bind_inv H0. injection H0 as <-. cbn [good_piece].
    nt.
    refine (fields_neat ps _ N ps fs _ D (incl_refl _) P H1). clear - H W. induction H as [|(k, t) r Ht _ IH]; [constructor|]. cbn [wf_fts] in W. constructor; [|apply IH; tauto]. cbn [snd] in *. apply Ht. tauto.
  - destruct W as (D & _ & W). apply wf_fts_go in W. cbn [named] in N. rewrite named_go in N. apply andb_true_iff in N. destruct N as (N0 & N).
    apply parsed_compoundnots in P. destruct P as (fs & -> & P). change (ftt (FCompound c ps) (VObj c fs) = Ok p0) in H0. rewrite ftt_compound in H0. bind_inv H0. injection H0 as <-. cbn [good_piece].
    nt.
    refine (fields_neat ps _ N ps fs _ D (incl_refl _) P H1). clear - H W. induction H as [|(k, t) r Ht _ IH]; [constructor|]. cbn [wf_fts] in W. constructor; [|apply IH; tauto]. cbn [snd] in *. apply Ht. tauto.
  - cbn [named] in N. destruct t; try discriminate N. cbn [ft_text] in H0. injection H0 as <-. cbn [good_piece].
    destruct P as [(z & ->)| ->]; [apply neat_int|]. destruct d; try discriminate N; cbn [value_text]; [apply neat_int|]. apply neatb_ok. destruct b; reflexivity.
Qed.
Lemma compound_neat c ps fs s : wf_fts ps -> NoDup (map fst ps) -> neatb (bs c) = true -> nameds ps = true -> parsed_fields ps fs ->
  compound_text false odd c ps fs = Ok s -> neat s.
Proof.
  intros W D C N P H. unfold compound_text in H. bind_inv H. injection H as <-.
  nt.
  refine (fields_neat ps _ N ps fs _ D (incl_refl _) P H0). clear - W. induction ps as [|(k, t) r IH]; [constructor|]. cbn [wf_fts] in W. constructor; [|apply IH; tauto]. intros N v p. apply ftt_neat; tauto.
Qed.

(** *** The lines of debugging *)
Notation dbt := (debug_text sha256 false odd).
Definition showable (v : pyval) : Prop := forall s, dbt v = Ok s -> neat s.
Definition entry_ok (v : pyval) : Prop := match v with VList l | VTuple l => Forall showable l | _ => showable v end.
Lemma show_int z : showable (VInt z).
Proof. intros s H. injection H as <-. apply neat_int. Qed.
Lemma show_bytes b : wf_bytes b -> showable (VBytes b).
Proof. intros W s H. injection H as <-. exact (neat_repr_of false b W). Qed.
Lemma hexlify_neat v x : (exists b, v = VBytes b /\ wf_bytes b) -> hexlify v = Ok x -> neat (render false (PBytes x)).
Proof. intros (b & -> & W) H. injection H as <-. apply (neat_repr_of false). apply wf_neat. now apply neat_hex. Qed.
Lemma hash_bytes ps cut fs h : ~ In "__hash" (map fst ps) -> parsed_fields ps fs ->
  fst (cached_hash (fun b => sha256 (sha256 b)) ps cut fs) = Ok h -> exists b, h = VBytes b /\ wf_bytes b.
Proof.
  intros N P H. unfold cached_hash in H. rewrite assoc_absent in H by (now rewrite (parsed_keys ps fs P)).
  destruct (fields_binary ps fs); [|discriminate]. injection H as <-. eauto.
Qed.
Lemma prop_parsed ps k t fs v : In (k, t) ps -> NoDup (map fst ps) -> parsed_fields ps fs -> prop k fs = Ok v -> parsed t v.
Proof. intros I N P H. destruct (parsed_assoc ps k t I N fs P) as (v' & E & S). unfold prop in H. rewrite E in H. injection H as <-. exact S. Qed.
Ltac nodup := vm_compute; repeat (constructor; [cbn; intuition discriminate|]); constructor.
Lemma show_address v : parsed FtNetworkAddress v -> showable v.
Proof.
  intros P s H. apply parsed_compound in P. destruct P as (fs & -> & P). cbn [debug_text String.eqb Ascii.eqb Bool.eqb] in H. bind_inv H. bind_inv H.
  apply (prop_parsed NetworkAddress_props "address" FIP) in H0; [|cbn; tauto|nodup|exact P]. destruct H0 as (t & -> & Nt).
  apply (prop_parsed NetworkAddress_props "port" (FNumber FH true false)) in H1; [|cbn; tauto|nodup|exact P]. destruct H1 as (z & ->).
  injection H as <-. pose proof (neat_int z). apply wordy_neat in Nt. cbn [value_text]. nt.
Qed.
Lemma show_inventory v : parsed FtInventoryVector v -> showable v.
Proof.
  intros P s H. apply parsed_compound in P. destruct P as (fs & -> & P). cbn [debug_text String.eqb Ascii.eqb Bool.eqb] in H. bind_inv H. bind_inv H. bind_inv H. bind_inv H. injection H as <-.
  apply (prop_parsed InventoryVector_props "hash" (FBytes 32)) in H1; [|cbn; tauto|nodup|exact P].
  pose proof (hexlify_neat _ _ H1 H3) as Nx.
  apply (prop_parsed InventoryVector_props "object_type" (FNumber FI false false)) in H0; [|cbn; tauto|nodup|exact P]. destruct H0 as (z & ->).
  assert (neat x1) as N1.
  { destruct (z <=? 2); [|injection H2 as <-; apply neatb_ok; reflexivity].
    repeat match type of H2 with match ?x with _ => _ end = _ => destruct x end; try discriminate H2; injection H2 as <-; apply neatb_ok; reflexivity. }
  nt.
Qed.
Lemma show_txn v : parsed FtTxn v -> showable v.
Proof.
  intros P s H. apply parsed_compound in P. destruct P as (fs & -> & P). cbn [debug_text String.eqb Ascii.eqb Bool.eqb] in H. bind_inv H. bind_inv H. injection H as <-.
  apply (hexlify_neat _ _ (hash_bytes Txn_props (fun b => b) fs x ltac:(cbn; intuition discriminate) P H0) H1).
Qed.
Lemma show_header v : parsed FtBlockHeader v -> showable v.
Proof.
  intros P s H. apply parsed_compound in P. destruct P as (fs & -> & P). cbn [debug_text String.eqb Ascii.eqb Bool.eqb] in H. bind_inv H. bind_inv H. injection H as <-.
  apply (hexlify_neat _ _ (hash_bytes BlockHeader_props (ztake 80) fs x ltac:(cbn; intuition discriminate) P H0) H1).
Qed.
Lemma show_txnin v : wf_fts TxnIn_props -> parsed FtTxnIn v -> showable v.
Proof.
  intros W P s H. apply parsed_compound in P. destruct P as (fs & -> & P). cbn [debug_text String.eqb Ascii.eqb Bool.eqb] in H.
  refine (compound_neat "TxnIn" TxnIn_props fs s W _ eq_refl eq_refl P H). nodup.
Qed.
Lemma show_txnout v : wf_fts TxnOut_props -> parsed FtTxnOut v -> showable v.
Proof.
  intros W P s H. apply parsed_compound in P. destruct P as (fs & -> & P). cbn [debug_text String.eqb Ascii.eqb Bool.eqb] in H.
  refine (compound_neat "TxnOut" TxnOut_props fs s W _ eq_refl eq_refl P H). nodup.
Qed.
Lemma item_neat k v s : neat k -> showable v -> debug_item sha256 false odd k v = Ok s -> neat s.
Proof. intros K S H. unfold debug_item in H. destruct (truthy v); [|injection H as <-; constructor]. bind_inv H. injection H as <-. apply S in H0. nt. Qed.
Lemma entry_neat k v s : neat (bs k) -> entry_ok v -> debug_entry sha256 false odd k v = Ok s -> neat s.
Proof.
  intros K S H. assert (forall l, neat (bs " len(" ++ bs k ++ bs ")=" ++ int_text (zlen l))) as Nl by (intro l; pose proof (neat_int (@zlen pyval l)); nt).
  unfold debug_entry in H. destruct v; try exact (item_neat _ _ _ K S H); (destruct l as [|x l]; [injection H as <-; apply Nl|]); bind_inv H; injection H as <-;
    (match type of H0 with debug_item _ _ _ _ _ = Ok ?y => assert (neat y) by (refine (item_neat _ _ _ _ _ H0); [nt|now inversion S]) end); pose proof (neat_int (zlen (x :: l))); nt.
Qed.
Lemma entries_neat params s : Forall (fun e => neat (bs (fst e)) /\ entry_ok (snd e)) params -> debug_entries sha256 false odd params = Ok s -> neat s.
Proof.
  intros F. revert s. induction F as [|(k, v) r (K & S) _ IH]; intros s H; cbn [debug_entries] in H; [injection H as <-; constructor|].
  bind_inv H. bind_inv H. injection H as <-. apply neat_app; [exact (entry_neat _ _ _ K S H0)|now apply IH].
Qed.
Lemma line_neat c params s : neatb (bs c) = true -> Forall (fun e => neat (bs (fst e)) /\ entry_ok (snd e)) params ->
  debug_line sha256 false odd c params = Ok s -> neat s.
Proof. intros C F H. unfold debug_line in H. bind_inv H. injection H as <-. apply entries_neat in H0; [|exact F]. nt. Qed.
Definition entry_type (t : ft) : Prop := forall v, parsed t v -> entry_ok v.
Lemma reads_neat ps ks fs params : NoDup (map fst ps) -> parsed_fields ps fs ->
  Forall (fun e => neatb (bs (fst e)) = true /\ exists t, In (snd e, t) ps /\ entry_type t) ks ->
  debug_reads ks fs = Ok params -> Forall (fun e => neat (bs (fst e)) /\ entry_ok (snd e)) params.
Proof.
  intros N P F. revert params. induction F as [|(l, k) r (L & t & I & T) _ IH]; intros params H; cbn [debug_reads] in H; [injection H as <-; constructor|].
  bind_inv H. bind_inv H. injection H as <-. constructor; [|now apply IH]. cbn [fst snd] in *. split; [now apply neatb_ok|]. apply T. exact (prop_parsed _ _ _ _ _ I N P H0).
Qed.
Lemma number_entry f big a : entry_type (FNumber f big a).
Proof. intros v (z & ->). apply show_int. Qed.
Lemma str_entry : entry_type FVarStr.
Proof. intros v (b & -> & W). now apply show_bytes. Qed.
Lemma array_entry t mn mx : (forall v, parsed t v -> showable v) -> entry_type (FArray t mn mx).
Proof. intros H v (l & -> & F). cbn [entry_ok]. eapply Forall_impl; [exact H|exact F]. Qed.
End Py3.
