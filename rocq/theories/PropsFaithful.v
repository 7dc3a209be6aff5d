(** C161: what the lines of the highest level of detail tell about the messages
    received (nbc/node/connection.py, nbc/protocol/format.py). *)
From Coq Require Import String ZArith List Lia Bool.
From Verif Require Import PyBase PyVal PyTextProofs FormatModel FormatSpec FormatProofs FormatProofs2 MessagesModel MessagesProofs AlertProofs UtilModel UtilProofs SeedModel PropsSeed NodeModel LogModel LogProofs TextModel TextProofs PropsProtocol PropsNode PropsLog PropsText.
Import ListNotations.
Open Scope string_scope.
Open Scope list_scope.
Open Scope Z_scope.

Lemma ok_inj {A} (x y : A) : Ok x = Ok y -> x = y.
Proof. congruence. Qed.

(** *** Tokens and what ends them *)
Definition ends (c : Z) : Prop := c = 32 \/ c = 44 \/ c = 62 \/ c = 93.
Definition token (s : text) : Prop := Forall (fun c => ~ ends c) s.
Definition stop (r : text) : Prop := match r with [] => True | c :: _ => ends c end.
Lemma token_split a b r s : token a -> token b -> stop r -> stop s -> a ++ r = b ++ s -> a = b /\ r = s.
Proof.
  intros A. revert b. induction A as [|x a X A IH]; intros b B R S H.
  - destruct B as [|y b Y B]; [auto|]. cbn [app] in H. subst r. now exfalso.
  - destruct B as [|y b Y B].
    + cbn [app] in H. subst s. now exfalso.
    + cbn [app] in H. injection H as <- H. destruct (IH b B R S H) as (-> & ->). auto.
Qed.
Definition tokenb (s : text) : bool := forallb (fun c => negb ((c =? 32) || (c =? 44) || (c =? 62) || (c =? 93))) s.
Lemma tokenb_ok s : tokenb s = true -> token s.
Proof. unfold tokenb, token. intro H. rewrite forallb_forall in H. apply Forall_forall. intros c Hc E. specialize (H c Hc). unfold ends in E. destruct E as [-> | [-> | [-> | ->]]]; discriminate H. Qed.
Lemma wordy_token s : Forall wordy s -> token s.
Proof. apply Forall_impl. unfold wordy, ends. lia. Qed.
Lemma int_text_inj a b : int_text a = int_text b -> a = b.
Proof.
  assert (forall x, 0 <= x -> ~ In 45 (text_of_int 10 x)) as N.
  { assert (forall f x acc, 0 <= x -> ~ In 45 acc -> ~ In 45 (digits_aux f 10 x acc)) as G.
    { assert (forall d, 0 <= d < 10 -> 45 <> digit_char d) as D by (intros d Hd; unfold digit_char; destruct (Z.ltb_spec d 10); lia).
      induction f as [|f IH]; intros x acc Hx Ha; [exact Ha|]. cbn [digits_aux]. destruct (Z.ltb_spec x 10).
      - intros [E|E]; [symmetry in E; revert E; apply D; lia|contradiction].
      - apply IH; [apply Z.div_pos; lia|]. intros [E|E]; [symmetry in E; revert E; apply D; apply Z.mod_pos_bound; lia|contradiction]. }
    intros x Hx. now apply G. }
  assert (forall x y, 0 <= x -> 0 <= y -> text_of_int 10 x = text_of_int 10 y -> x = y) as J.
  { intros x y Hx Hy E. pose proof (int_of_text_of_int 10 x (or_introl eq_refl) Hx) as P. rewrite E in P. rewrite (int_of_text_of_int 10 y (or_introl eq_refl) Hy) in P. congruence. }
  unfold int_text. destruct (Z.ltb_spec a 0), (Z.ltb_spec b 0); intro E.
  - injection E as E. apply J in E; lia.
  - exfalso. apply (N b); [lia|]. rewrite <- E. now left.
  - exfalso. apply (N a); [lia|]. rewrite E. now left.
  - apply J in E; lia.
Qed.
Lemma int_nonempty z : int_text z <> [].
Proof.
  unfold int_text. destruct (Z.ltb_spec z 0); [discriminate|]. intro E. pose proof (int_of_text_of_int 10 z (or_introl eq_refl) ltac:(lia)) as P. rewrite E in P. discriminate P.
Qed.
Lemma hex_token b : wf_bytes b -> token (hex_encode b).
Proof.
  induction 1 as [|c r Hc _ IH]; [constructor|]. unfold hex_encode in *. cbn [flat_map]. unfold is_byte in Hc. apply Forall_app. split; [|exact IH].
  assert (0 <= c / 16 < 16) by (split; [apply Z.div_pos; lia|apply Z.div_lt_upper_bound; lia]). pose proof (Z.mod_pos_bound c 16 ltac:(lia)).
  repeat constructor; unfold ends, hex_digit; destruct (Z.ltb_spec (c / 16) 10), (Z.ltb_spec (c mod 16) 10); lia.
Qed.
Lemma hex_inj a b : wf_bytes a -> wf_bytes b -> hex_encode a = hex_encode b -> a = b.
Proof. intros A B E. apply hex_decode_encode in A. apply hex_decode_encode in B. rewrite E in A. congruence. Qed.
Lemma flat_repr_split q a b r s : q = 34 \/ q = 39 -> wf_bytes a -> wf_bytes b ->
  flat_map (repr_byte q) a ++ q :: r = flat_map (repr_byte q) b ++ q :: s -> a = b /\ r = s.
Proof.
  intros Q A. revert b. induction A as [|x a X A IH]; intros b B H.
  - destruct B as [|y b Y B]; [cbn in H; split; congruence|]. exfalso. cbn [flat_map app] in H. rewrite <- app_assoc in H. destruct (repr_byte_head q y Q) as (z & t & E & N). rewrite E in H. cbn in H. injection H. intros. lia.
  - destruct B as [|y b Y B].
    + exfalso. cbn [flat_map app] in H. rewrite <- app_assoc in H. destruct (repr_byte_head q x Q) as (z & t & E & N). rewrite E in H. cbn in H. injection H. intros. lia.
    + cbn [flat_map] in H. rewrite <- !app_assoc in H. apply repr_byte_inj in H; [|assumption|exact X|exact Y]. destruct H as (-> & H). destruct (IH b B H) as (-> & ->). auto.
Qed.
Lemma repr_split py2 a b r s : wf_bytes a -> wf_bytes b -> repr_of py2 a ++ r = repr_of py2 b ++ s -> a = b /\ r = s.
Proof.
  intros A B H. unfold repr_of, repr_bytes in H. cbn [tl] in H.
  assert (repr_quote a = repr_quote b /\ flat_map (repr_byte (repr_quote a)) a ++ repr_quote a :: r = flat_map (repr_byte (repr_quote b)) b ++ repr_quote b :: s) as (E & H').
  { destruct py2; cbn [app] in H; rewrite <- !app_assoc in H; cbn [app] in H; split; congruence. }
  rewrite E in H'. exact (flat_repr_split _ _ _ _ _ (repr_quote_cases b) A B H').
Qed.

(** *** Texts of fields *)
(** The types of items of arrays, whose texts are not empty, and the defaults. *)
Definition itemb (t : ft) : bool := match t with FIP | FOptional _ _ => false | _ => true end.
Fixpoint clear_ft (t : ft) : bool :=
  match t with
  | FArray c _ _ => itemb c && clear_ft c
  | FCompound _ ps | FCompoundNoTs _ ps => (fix go ps := match ps with [] => true | (_, t) :: r => clear_ft t && go r end) ps
  | FOptional c d => match c, d with FNumber _ _ _, VBool _ => true | _, _ => false end
  | _ => true
  end.
Fixpoint clear_fts (ps : list (string * ft)) : bool := match ps with [] => true | (_, t) :: r => clear_ft t && clear_fts r end.
Lemma clear_go ps : (fix go ps := match ps with [] => true | (_, t) :: r => clear_ft t && go r end) ps = clear_fts ps.
Proof. induction ps as [|(k, t) r IH]; cbn; congruence. Qed.

Section Decode.
Variable py2 : bool.
Variable odd : pyval -> text.
Notation ftt := (ft_text py2 odd).
Notation fst_ := (fields_text py2 odd).
Notation rnd := (render py2).

Definition decodes (t : ft) : Prop := forall v v' p p' r s, parsed t v -> parsed t v' -> ftt t v = Ok p -> ftt t v' = Ok p' ->
  stop r -> stop s -> rnd p ++ r = rnd p' ++ s -> v = v' /\ r = s.

Lemma ftt_comp c ps c' fs : ftt (FCompound c ps) (VObj c' fs) = let! s := fst_ ps fs in Ok (PText (bs "<" ++ bs c' ++ s ++ bs ">")).
Proof.
  cbn [ft_text]. assert (forall a b : res text, a = b -> (let! s := a in Ok (PText (bs "<" ++ bs c' ++ s ++ bs ">"))) = (let! s := b in Ok (PText (bs "<" ++ bs c' ++ s ++ bs ">")))) as F by (now intros a b ->). apply F. clear F. induction ps as [|(k, t) r IH]; cbn [fields_text]; [reflexivity|]. destruct (assoc k fs); [|reflexivity].
  destruct (ftt t p); cbn [bind]; [|reflexivity]. now rewrite IH.
Qed.
Lemma fields_stop ps fs s r : fst_ ps fs = Ok s -> stop (s ++ 62 :: r).
Proof.
  destruct ps as [|(k, t) ps]; cbn [fields_text]; intro H; [apply ok_inj in H; subst; cbn; unfold ends; auto|]. destruct (assoc k fs); [|discriminate]. bind_inv H. bind_inv H. apply ok_inj in H; subst. cbn. unfold ends. auto.
Qed.
Lemma fields_decode ps : Forall (fun e => decodes (snd e)) ps -> forall all fs fs' a b r s, NoDup (map fst all) -> incl ps all -> parsed_fields all fs -> parsed_fields all fs' ->
  fst_ ps fs = Ok a -> fst_ ps fs' = Ok b -> a ++ 62 :: r = b ++ 62 :: s -> (forall k, In k (map fst ps) -> assoc k fs = assoc k fs') /\ r = s.
Proof.
  induction 1 as [|(k, t) l Ht _ IH]; intros all fs fs' a b r s D C P P' A B E; cbn [fields_text] in A, B.
  - apply ok_inj in A; subst. apply ok_inj in B; subst. cbn [app] in E. injection E as E. split; [intros k []|exact E].
  - destruct (parsed_assoc all k t (C _ (or_introl eq_refl)) D fs P) as (v & K & S). destruct (parsed_assoc all k t (C _ (or_introl eq_refl)) D fs' P') as (v' & K' & S').
    rewrite K in A. rewrite K' in B. bind_inv A. bind_inv A. bind_inv B. bind_inv B. apply ok_inj in A; subst. apply ok_inj in B; subst.
    rewrite <- !app_assoc in E. do 3 apply app_inv_head in E. cbn [snd] in Ht.
    destruct (Ht v v' _ _ _ _ S S' H H1 (fields_stop _ _ _ r H0) (fields_stop _ _ _ s H2) E) as (-> & E').
    destruct (IH all fs fs' _ _ r s D (fun e He => C e (or_intror He)) P P' H0 H2 E') as (Q & ->). split; [|reflexivity].
    intros k0 [<-|I]; [cbn [fst]; congruence|]. now apply Q.
Qed.
Lemma same_fields ps : NoDup (map fst ps) -> forall fs fs', parsed_fields ps fs -> parsed_fields ps fs' -> (forall k, In k (map fst ps) -> assoc k fs = assoc k fs') -> fs = fs'.
Proof.
  induction ps as [|(k, t) l IH]; intros D [|(k1, x) fs] [|(k2, y) fs'] P P' H; try contradiction; [reflexivity|].
  cbn [parsed_fields] in P, P'. destruct P as (-> & _ & P). destruct P' as (-> & _ & P'). cbn [map fst] in D, H. apply NoDup_cons_iff in D. destruct D as (N & D).
  pose proof (H k (or_introl eq_refl)) as E. cbn [assoc] in E. rewrite String.eqb_refl in E. injection E as <-. f_equal. apply IH; try assumption.
  intros k0 I. specialize (H k0 (or_intror I)). cbn [assoc] in H. destruct (String.eqb_spec k0 k) as [Ek|_]; [rewrite Ek in I; contradiction|exact H].
Qed.

(** The text of an item of an array is neither empty nor does it begin like the
    end of the array. *)
Lemma item_head t v p : itemb t = true -> parsed t v -> ftt t v = Ok p -> exists c r, rnd p = c :: r /\ c <> 93.
Proof.
  intros I P H.
  assert (forall z, exists c r, int_text z = c :: r /\ c <> 93) as Num.
  { intro z. pose proof (int_nonempty z) as N. pose proof (wordy_int z) as W. destruct (int_text z) as [|c r]; [contradiction|]. exists c, r. split; [reflexivity|]. inversion W. subst. unfold wordy in *. lia. }
  assert (forall b, exists c r, repr_of py2 b = c :: r /\ c <> 93) as Rep.
  { intro b. unfold repr_of, repr_bytes. destruct py2; cbn [tl]; do 2 eexists; (split; [reflexivity|]); destruct (repr_quote_cases b); lia. }
  destruct t; try discriminate I; cbn [ft_text] in H.
  - destruct P as (z & ->). apply ok_inj in H; subst. apply Num.
  - destruct P as (z & ->). apply ok_inj in H; subst. apply Num.
  - destruct P as (b & -> & W). apply ok_inj in H; subst. unfold render. destruct py2; [|apply Rep]. cbn. do 2 eexists. split; [reflexivity|lia].
  - destruct P as (b & -> & W). apply ok_inj in H; subst. cbn [render repr_text]. apply Rep.
  - destruct P as (l & -> & W). bind_inv H. bind_inv H. apply ok_inj in H; subst. cbn. do 2 eexists. split; [reflexivity|lia].
  - destruct P as (fs & -> & _). bind_inv H. apply ok_inj in H; subst. cbn. do 2 eexists. split; [reflexivity|lia].
  - destruct P as (fs & -> & _). bind_inv H. apply ok_inj in H; subst. cbn. do 2 eexists. split; [reflexivity|lia].
Qed.
Lemma stop_sep {A} (f : A -> text) l r : stop (match l with [] => [] | _ => bs ", " ++ join_text (bs ", ") (map f l) end ++ 93 :: r).
Proof. destruct l; cbn; unfold ends; auto. Qed.
Lemma join_cons (f : piece -> text) p l : join_text (bs ", ") (map f (p :: l)) = f p ++ match l with [] => [] | _ => bs ", " ++ join_text (bs ", ") (map f l) end.
Proof. destruct l; [cbn; now rewrite app_nil_r|reflexivity]. Qed.
Lemma items_decode t : decodes t -> itemb t = true -> forall l, Forall (parsed t) l -> forall l' ps ps' r s, Forall (parsed t) l' ->
  sequence (map (ftt t) l) = Ok ps -> sequence (map (ftt t) l') = Ok ps' ->
  join_text (bs ", ") (map rnd ps) ++ 93 :: r = join_text (bs ", ") (map rnd ps') ++ 93 :: s -> l = l' /\ r = s.
Proof.
  intros Dt It l Fl. induction Fl as [|v l Hv Fl IH]; intros l' ps ps' r s Fl' A B E.
  - apply ok_inj in A; subst. destruct Fl' as [|v' l' Hv' Fl']; cbn [map sequence] in B.
    + apply ok_inj in B; subst. cbn [map join_text app] in E. split; congruence.
    + bind_inv B. bind_inv B. apply ok_inj in B; subst. destruct (item_head t v' _ It Hv' H) as (c & q & G & N). rewrite join_cons, G in E. cbn in E. congruence.
  - cbn [map sequence] in A. bind_inv A. bind_inv A. apply ok_inj in A; subst. destruct Fl' as [|v' l' Hv' Fl']; cbn [map sequence] in B.
    + apply ok_inj in B; subst. destruct (item_head t v _ It Hv H) as (c & q & G & N). rewrite join_cons, G in E. cbn in E. congruence.
    + bind_inv B. bind_inv B. apply ok_inj in B; subst. rewrite !join_cons, <- !app_assoc in E.
      destruct (Dt v v' _ _ _ _ Hv Hv' H H1 (stop_sep rnd _ r) (stop_sep rnd _ s) E) as (-> & E').
      destruct x0 as [|y0 r0], x2 as [|y2 r2].
      * destruct (IH l' [] [] r s Fl' H0 H2 ltac:(exact E')) as (-> & ->). auto.
      * cbn in E'. congruence.
      * cbn in E'. congruence.
      * rewrite <- !app_assoc in E'. apply app_inv_head in E'. destruct (IH l' _ _ r s Fl' H0 H2 E') as (-> & ->). auto.
Qed.
Lemma comp_decode c ps : Forall (fun e => decodes (snd e)) ps -> NoDup (map fst ps) -> decodes (FCompound c ps).
Proof.
  intros F D v v' p p' r s P P' A B R S E. apply parsed_compound in P, P'. destruct P as (fs & -> & P). destruct P' as (fs' & -> & P').
  rewrite ftt_comp in A, B. bind_inv A. bind_inv B. apply ok_inj in A; subst. apply ok_inj in B; subst. cbn [render] in E. rewrite <- !app_assoc in E. do 2 apply app_inv_head in E.
  destruct (fields_decode ps F ps fs fs' _ _ r s D (incl_refl _) P P' H H0 E) as (Q & ->). split; [|reflexivity]. f_equal. now apply (same_fields ps).
Qed.
Lemma atom_decode (t : ft) : (forall v p, parsed t v -> ftt t v = Ok p -> token (rnd p)) ->
  (forall v v' p p', parsed t v -> parsed t v' -> ftt t v = Ok p -> ftt t v' = Ok p' -> rnd p = rnd p' -> v = v') -> decodes t.
Proof.
  intros T I v v' p p' r s P P' A B R S E. destruct (token_split _ _ _ _ (T _ _ P A) (T _ _ P' B) R S E) as (E' & ->). split; [|reflexivity]. exact (I _ _ _ _ P P' A B E').
Qed.
Lemma decode t : wf_ft t -> clear_ft t = true -> decodes t.
Proof.
  induction t using ft_ind'; intros W N.
  - apply atom_decode; [intros v p (z & ->) H; apply ok_inj in H; subst; apply wordy_token, wordy_int|]. intros v v' p p' (z & ->) (z' & ->) A B E. apply ok_inj in A; subst. apply ok_inj in B; subst. cbn in E. apply int_text_inj in E. congruence.
  - apply atom_decode; [intros v p (z & ->) H; apply ok_inj in H; subst; apply wordy_token, wordy_int|]. intros v v' p p' (z & ->) (z' & ->) A B E. apply ok_inj in A; subst. apply ok_inj in B; subst. cbn in E. apply int_text_inj in E. congruence.
  - apply atom_decode; [intros v p (z & -> & Wz) H; apply ok_inj in H; subst; now apply wordy_token|]. intros v v' p p' (z & -> & _) (z' & -> & _) A B E. apply ok_inj in A; subst. apply ok_inj in B; subst. cbn in E. congruence.
  - intros v v' p p' r s (b & -> & Wb) (b' & -> & Wb') A B R S E. apply ok_inj in A; subst. apply ok_inj in B; subst. unfold render in E. destruct py2.
    + assert (forall x, wf_bytes x -> token (bs "0x" ++ hex_encode x)) as T by (intros x Wx; apply Forall_app; split; [apply tokenb_ok; reflexivity|now apply hex_token]).
      apply (token_split _ _ _ _ (T _ Wb) (T _ Wb') R S) in E. destruct E as (E & ->). apply app_inv_head in E. apply hex_inj in E; [|assumption..]. split; congruence.
    + apply repr_split in E; [|apply wf_neat; apply neat_app; [apply neatb_ok; reflexivity|now apply neat_hex]..]. destruct E as (E & ->). apply app_inv_head in E. apply hex_inj in E; [|assumption..]. split; congruence.
  - intros v v' p p' r s (b & -> & Wb) (b' & -> & Wb') A B R S E. apply ok_inj in A; subst. apply ok_inj in B; subst. cbn [render repr_text] in E. apply repr_split in E; [|assumption..]. destruct E as (-> & ->). auto.
  - destruct W as (W & _). cbn [clear_ft] in N. apply andb_true_iff in N. destruct N as (I & N).
    intros v v' p p' r s (l & -> & Fl) (l' & -> & Fl') A B R S E. cbn [ft_text] in A, B. bind_inv A. bind_inv A. bind_inv B. bind_inv B. apply ok_inj in A; subst. apply ok_inj in B; subst.
    unfold join_pieces in H0, H2. destruct (_ && _); [discriminate|]. destruct (_ && _); [discriminate|]. apply ok_inj in H0; subst. apply ok_inj in H2; subst.
    cbn [render] in E. rewrite <- !app_assoc in E. apply app_inv_head in E. destruct (items_decode t (IHt W N) I l Fl l' _ _ r s Fl' H H1 E) as (-> & ->). auto.
  - destruct W as (D & W). apply wf_fts_go in W. cbn [clear_ft] in N. rewrite clear_go in N. apply comp_decode; [|exact D].
    clear - H W N. induction H as [|(k, t) r Ht _ IH]; [constructor|]. cbn [wf_fts] in W. cbn [clear_fts] in N. apply andb_true_iff in N. destruct N as (N1 & N2). constructor; [|apply IH; tauto]. cbn [snd] in *. apply Ht; tauto.
  - destruct W as (D & _ & W). apply wf_fts_go in W. cbn [clear_ft] in N. rewrite clear_go in N. change (decodes (FCompound c ps)). apply comp_decode; [|exact D].
    clear - H W N. induction H as [|(k, t) r Ht _ IH]; [constructor|]. cbn [wf_fts] in W. cbn [clear_fts] in N. apply andb_true_iff in N. destruct N as (N1 & N2). constructor; [|apply IH; tauto]. cbn [snd] in *. apply Ht; tauto.
  - cbn [clear_ft] in N. destruct t; try discriminate N. destruct d; try discriminate N.
    assert (forall z c, int_text z <> bs (if c : bool then "True" else "False")) as X.
    { intros z c E. pose proof (wordy_int z) as G. rewrite E in G. destruct c; inversion G as [|? ? G1]; unfold wordy in G1; lia. }
    apply atom_decode.
    + intros v p [(z & ->)| ->] H; apply ok_inj in H; subst; [apply wordy_token, wordy_int|]. cbn [render value_text]. apply tokenb_ok. destruct b; reflexivity.
    + intros v v' p p' [(z & ->)| ->] [(z' & ->)| ->] A B E; apply ok_inj in A; subst; apply ok_inj in B; subst; cbn [render value_text] in E.
      * apply int_text_inj in E. congruence.
      * now apply X in E.
      * symmetry in E. now apply X in E.
      * reflexivity.
Qed.
Lemma decode_all ps : wf_fts ps -> clear_fts ps = true -> Forall (fun e => decodes (snd e)) ps.
Proof.
  induction ps as [|(k, t) r IH]; intros W N; [constructor|]. cbn [wf_fts] in W. cbn [clear_fts] in N. apply andb_true_iff in N. destruct N as (N1 & N2). constructor; [|apply IH; tauto]. cbn [snd]. apply decode; tauto.
Qed.

(** *** Messages *)
(** How the text of a message of a type begins. *)
Definition head (t : msg_type) : text := bs (class_name (mt_id t)) ++ match mt_props t with [] => bs ">" | (k, _) :: _ => bs " " ++ bs k ++ bs "=" end.
Fixpoint diverge (a b : text) : bool := match a, b with x :: a', y :: b' => negb (x =? y) || diverge a' b' | _, _ => false end.
Lemma diverge_ok a b r s : diverge a b = true -> a ++ r <> b ++ s.
Proof.
  revert b. induction a as [|x a IH]; intros [|y b] D; try discriminate D. cbn [diverge] in D. apply orb_true_iff in D. cbn [app]. intro E. injection E as -> E. destruct D as [D|D]; [rewrite Z.eqb_refl in D; discriminate D|]. exact (IH b D E).
Qed.
Lemma registry_heads : Forall (fun t => Forall (fun t' => diverge (head t) (head t') = true \/ t = t') registry) registry.
Proof.
  rewrite registry_all. let t := eval vm_compute in all_types in change all_types with t.
  repeat (constructor; [repeat (constructor; [first [right; reflexivity | left; vm_compute; reflexivity]|]); constructor|]). constructor.
Qed.
Lemma registry_clear : Forall (fun t => clear_fts (mt_props t) = true) registry.
Proof. rewrite registry_all. let t := eval vm_compute in all_types in change all_types with t. repeat (constructor; [vm_compute; reflexivity|]). constructor. Qed.
Lemma compound_head t fs s : compound_text py2 odd (class_name (mt_id t)) (mt_props t) fs = Ok s -> exists r, s = bs "<" ++ head t ++ r.
Proof.
  unfold compound_text, head. intro H. bind_inv H. apply ok_inj in H; subst. destruct (mt_props t) as [|(k, vt) ps]; cbn [fields_text] in H0.
  - apply ok_inj in H0; subst. exists []. now rewrite app_nil_r.
  - destruct (assoc k fs); [|discriminate]. bind_inv H0. bind_inv H0. apply ok_inj in H0; subst. exists (rnd x0 ++ x1 ++ bs ">"). rewrite <- !app_assoc. reflexivity.
Qed.
Lemma message_decode m m' s r r' : In (m_type m) registry -> In (m_type m') registry ->
  parsed_fields (mt_props (m_type m)) (m_fields m) -> parsed_fields (mt_props (m_type m')) (m_fields m') ->
  mt_id (m_type m) <> "Alert" -> mt_id (m_type m') <> "Alert" -> forall s', message_text py2 odd m = Ok s -> message_text py2 odd m' = Ok s' -> s ++ r = s' ++ r' -> m = m' /\ r = r'.
Proof.
  intros R R' P P' N N' s' H H' E. unfold message_text in H, H'. rewrite (proj2 (String.eqb_neq _ _) N) in H. rewrite (proj2 (String.eqb_neq _ _) N') in H'.
  assert (m_type m = m_type m') as T.
  { pose proof registry_heads as G. rewrite Forall_forall in G. specialize (G _ R). rewrite Forall_forall in G. destruct (G _ R') as [D|D]; [|exact D]. exfalso.
    destruct (compound_head _ _ _ H) as (q & ->). destruct (compound_head _ _ _ H') as (q' & ->). rewrite <- !app_assoc in E. apply app_inv_head in E. exact (diverge_ok _ _ _ _ D E). }
  destruct m as (t, fs), m' as (t', fs'). cbn [m_type m_fields] in *. subst t'. destruct (registry_wf _ R) as (W & D & _). pose proof registry_clear as G. rewrite Forall_forall in G. specialize (G _ R).
  unfold compound_text in H, H'. bind_inv H. bind_inv H'. apply ok_inj in H; subst. apply ok_inj in H'; subst s'. rewrite <- !app_assoc in E. do 2 apply app_inv_head in E.
  destruct (fields_decode _ (decode_all _ W G) _ fs fs' _ _ r r' D (incl_refl _) P P' H0 H1 E) as (Q & ->). split; [|reflexivity]. f_equal. now apply (same_fields (mt_props t)).
Qed.
End Decode.

(** *** The theorems *)

(** A message that was read from the wire and is no alert. *)
Definition plain (sha256 : bytes -> bytes) (magic : bytes) (m : message) : Prop :=
  (exists data, wf_bytes data /\ msg_parse sha256 data magic = Ok m) /\ mt_id (m_type m) <> "Alert".
(** The part of the log that records the messages received from the peers named:
    a line for each of them. *)
Inductive record (sha256 : bytes -> bytes) (py2 : bool) (odd : pyval -> text) (level : Z) : list (text * message) -> text -> Prop :=
| record_none : record sha256 py2 odd level [] []
| record_more : forall peer m l t r, log_text sha256 py2 odd (bs "<<< ") level m = Ok (Some t) -> record sha256 py2 odd level l r ->
    record sha256 py2 odd level ((peer, m) :: l) (text_line peer t ++ r).

(** Two messages that are logged alike are the same message. *)
Theorem C161_faithful_partial : forall sha256 py2 odd magic m m' level t, plain sha256 magic m -> plain sha256 magic m' -> level <= LOG_LEVEL_PROTOCOL ->
  log_text sha256 py2 odd (bs "<<< ") level m = Ok (Some t) -> log_text sha256 py2 odd (bs "<<< ") level m' = Ok (Some t) -> m = m'.
Proof.
  intros sha py2 odd magic m m' level t ((d & W & P) & A) ((d' & W' & P') & A') L H H'. unfold log_text in H, H'. rewrite (proj2 (Z.leb_le _ _) L) in H, H'. bind_inv H. bind_inv H'. apply ok_inj in H. apply ok_inj in H'.
  destruct (message_parsed sha d _ m W P) as (R & F). destruct (message_parsed sha d' _ m' W' P') as (R' & F').
  assert (x = x0) as E by (apply (app_inv_head (bs "<<< ")); congruence). destruct (message_decode py2 odd m m' x [] [] R R' F F' A A' x0 H0 H1) as (-> & _); [congruence|reflexivity].
Qed.
Lemma peer_split a b r s : Forall (fun c => c <> 41) a -> Forall (fun c => c <> 41) b -> a ++ 41 :: r = b ++ 41 :: s -> a = b /\ r = s.
Proof.
  intros A. revert b. induction A as [|x a X A IH]; intros b B H.
  - destruct B as [|y b Y B]; cbn [app] in H; [split; congruence|]. injection H. intros. congruence.
  - destruct B as [|y b Y B]; cbn [app] in H; [injection H; intros; congruence|]. injection H as <- H. destruct (IH b B H) as (-> & ->). auto.
Qed.
Lemma record_inv sha py2 odd level l log : record sha py2 odd level l log -> l = [] /\ log = [] \/
  exists peer m l1 t r, l = (peer, m) :: l1 /\ log = text_line peer t ++ r /\ log_text sha py2 odd (bs "<<< ") level m = Ok (Some t) /\ record sha py2 odd level l1 r.
Proof. intros [|peer m l1 t r H R]; [auto|]. right. exists peer, m, l1, t, r. auto. Qed.
(** The log of all messages tells which peer sent which messages, in which
    order. *)
Theorem C161_history_partial : forall sha256 py2 odd magic level l l' log, level <= LOG_LEVEL_PROTOCOL ->
  Forall (fun e => ~ In 41 (fst e) /\ plain sha256 magic (snd e)) l -> Forall (fun e => ~ In 41 (fst e) /\ plain sha256 magic (snd e)) l' ->
  record sha256 py2 odd level l log -> record sha256 py2 odd level l' log -> l = l'.
Proof.
  intros sha py2 odd magic level l l' log L F F' H. revert l' F'. induction H as [|peer m l t r H _ IH]; intros l' F' H'.
  - apply record_inv in H'. destruct H' as [(-> & _)|(p' & m' & l1 & t' & r' & _ & E2 & _)]; [reflexivity|]. exfalso. discriminate E2.
  - inversion F as [|? ? (N & ((d & W & P) & A)) F1]. subst. apply record_inv in H'. destruct H' as [(_ & E2)|(p' & m' & l1 & t' & r' & -> & E2 & H1 & Y)]; [exfalso; discriminate E2|].
    inversion F' as [|? ? (N' & ((d' & W' & P') & A')) F1']. subst. cbn [fst snd] in *.
    unfold log_text in H, H1. rewrite (proj2 (Z.leb_le _ _) L) in H, H1. bind_inv H. bind_inv H1. apply ok_inj in H. apply ok_inj in H1.
    assert (t = bs "<<< " ++ x) by congruence. assert (t' = bs "<<< " ++ x0) by congruence. subst t t'. clear H H1.
    unfold text_line in E2. rewrite <- !app_assoc in E2. apply app_inv_head in E2.
    destruct (message_parsed sha d _ m W P) as (R & Fm). destruct (message_parsed sha d' _ m' W' P') as (R' & Fm').
    change (bs ") ") with (41 :: bs " ") in E2. cbn [app] in E2.
    assert (forall q, ~ In 41 q -> Forall (fun c => c <> 41) q) as G by (intros q Hq; apply Forall_forall; intros c Hc ->; contradiction).
    apply (peer_split _ _ _ _ (G _ N) (G _ N')) in E2. destruct E2 as (-> & E2). apply (app_inv_head (bs " " ++ bs "<<< ")) in E2.
    destruct (message_decode py2 odd m m' x (10 :: r) (10 :: r') R R' Fm Fm' A A' x0 H0 H2 E2) as (-> & E3). injection E3 as ->. f_equal. now apply (IH F1 l1 F1').
Qed.

(** It does not tell the signatures of alerts. *)
Definition fx_alert (signature : bytes) : bytes :=
  let body := match fields_binary alert_props [("version", VInt 1); ("relay_until", VInt 2); ("expiration", VInt 3); ("id", VInt 4); ("cancel", VInt 5); ("set_cancel", VList [VInt 6; VInt 7]);
    ("min_ver", VInt 8); ("max_ver", VInt 9); ("set_sub_ver", VList []); ("priority", VInt 10); ("comment", VBytes []); ("status_bar", VBytes (bs "hi")); ("reserved", VBytes [])] with Ok b => b | Raise _ => [] end in
  nx_frame "Alert" [VBytes body; VBytes signature].
Theorem C161_faithful_refuted : forall py2 odd, exists m m' t, m <> m' /\
  msg_parse nx_sha (fx_alert [1; 2; 3]) nx_magic = Ok m /\ msg_parse nx_sha (fx_alert [4; 5]) nx_magic = Ok m' /\
  log_text nx_sha py2 odd (bs "<<< ") LOG_LEVEL_PROTOCOL m = Ok (Some t) /\ log_text nx_sha py2 odd (bs "<<< ") LOG_LEVEL_PROTOCOL m' = Ok (Some t).
Proof.
  intros py2 odd. destruct py2; do 3 eexists; (split; [|split; [vm_compute; reflexivity|split; [vm_compute; reflexivity|split; vm_compute; reflexivity]]]); intro E; discriminate E.
Qed.
(** A version message is shown with the relay flag that it gives or with the
    default. *)
Theorem C161_relay : forall py2 odd fs t b, message_text py2 odd (mk_message (type_of "Version") fs) = Ok t -> assoc "relay" fs = Some (VBool b) ->
  exists s, t = s ++ bs (if b then " relay=True>" else " relay=False>").
Proof.
  intros py2 odd fs t b H A. unfold message_text in H. cbn [m_type m_fields] in H. change (String.eqb (mt_id (type_of "Version")) "Alert") with false in H. cbn iota in H. unfold compound_text in H. bind_inv H. apply ok_inj in H. subst t.
  assert (forall ps k vt x, fields_text py2 odd (ps ++ [(k, vt)]) fs = Ok x -> exists v p s, assoc k fs = Some v /\ ft_text py2 odd vt v = Ok p /\ x = s ++ bs " " ++ bs k ++ bs "=" ++ render py2 p) as L.
  { clear. induction ps as [|(k', t') ps IH]; intros k vt x H; cbn [app fields_text] in H.
    - destruct (assoc k fs) as [v|]; [|discriminate]. bind_inv H. apply ok_inj in H. exists v, x0, []. split; [reflexivity|]. split; [assumption|]. rewrite <- H. cbn [bind]. now rewrite app_nil_r.
    - destruct (assoc k' fs) as [v|]; [|discriminate]. bind_inv H. bind_inv H. apply ok_inj in H. destruct (IH _ _ _ H1) as (v' & p & s & E1 & E2 & ->). exists v', p, (bs " " ++ bs k' ++ bs "=" ++ render py2 x0 ++ s). split; [exact E1|]. split; [exact E2|]. rewrite <- H. now rewrite <- !app_assoc. }
  assert (exists ps, mt_props (type_of "Version") = ps ++ [("relay", FOptional (FNumber FB false false) (VBool true))]) as (ps & E) by (eexists [_; _; _; _; _; _; _; _]; vm_compute; reflexivity).
  rewrite E in H0. destruct (L _ _ _ _ H0) as (v & p & s & E1 & E2 & ->). assert (v = VBool b) as -> by congruence. cbn [ft_text value_text] in E2. apply ok_inj in E2. subst p. cbn [render].
  exists (bs "<" ++ bs (class_name (mt_id (type_of "Version"))) ++ s). rewrite <- !app_assoc. do 3 f_equal. destruct b; reflexivity.
Qed.
(** At the level of debugging, lists are told by their first item only. *)
Theorem C161_debug_refuted : forall py2 odd, exists m m' t, m <> m' /\
  msg_parse nx_sha (nx_frame "Address" [VList [nx_entry 1; nx_entry 2]]) nx_magic = Ok m /\ msg_parse nx_sha (nx_frame "Address" [VList [nx_entry 1; nx_entry 3]]) nx_magic = Ok m' /\
  log_text nx_sha py2 odd (bs "<<< ") LOG_LEVEL_DEBUG m = Ok (Some t) /\ log_text nx_sha py2 odd (bs "<<< ") LOG_LEVEL_DEBUG m' = Ok (Some t).
Proof.
  intros py2 odd. destruct py2; do 3 eexists; (split; [|split; [vm_compute; reflexivity|split; [vm_compute; reflexivity|split; vm_compute; reflexivity]]]); intro E; discriminate E.
Qed.

(** Messages that are logged: a reject and the two messages whose classes have
    the same name. *)
Definition fx_reject : bytes := nx_frame "Reject" [VBytes (bs "tx"); VInt 16; VBytes (bs "x>' reason=b'")].
Definition fx_load : bytes := nx_frame "FilterLoad" [VList [VInt 1; VInt 2]; VInt 3; VInt 4; VInt 0].
Definition fx_add : bytes := nx_frame "FilterLoad'" [VBytes (bs "ab")].
Example C161_applies : forall odd, exists a b c, plain nx_sha nx_magic a /\ plain nx_sha nx_magic b /\ plain nx_sha nx_magic c /\
  record nx_sha false odd LOG_LEVEL_PROTOCOL [(bs "10.0.0.1", a); (bs "10.0.0.2", b); (bs "10.0.0.1", c)]
    (bs "(10.0.0.1) <<< <Reject message=b'tx' ccode=16 reason=b""x>' reason=b'"">" ++ [10] ++
     bs "(10.0.0.2) <<< <FilterLoad filter=[1, 2] n_hashes_func=3 n_tweak=4 n_flags=0>" ++ [10] ++
     bs "(10.0.0.1) <<< <FilterLoad data=b'ab'>" ++ [10]).
Proof.
  intro odd. do 3 eexists.
  split; [split; [exists fx_reject; split; [apply wf_all; vm_compute; reflexivity|vm_compute; reflexivity]|vm_compute; discriminate]|].
  split; [split; [exists fx_load; split; [apply wf_all; vm_compute; reflexivity|vm_compute; reflexivity]|vm_compute; discriminate]|].
  split; [split; [exists fx_add; split; [apply wf_all; vm_compute; reflexivity|vm_compute; reflexivity]|vm_compute; discriminate]|].
  refine (record_more _ _ _ _ (bs "10.0.0.1") _ _ (bs "<<< <Reject message=b'tx' ccode=16 reason=b""x>' reason=b'"">") _ _ _); [vm_compute; reflexivity|].
  refine (record_more _ _ _ _ (bs "10.0.0.2") _ _ (bs "<<< <FilterLoad filter=[1, 2] n_hashes_func=3 n_tweak=4 n_flags=0>") _ _ _); [vm_compute; reflexivity|].
  refine (record_more _ _ _ _ (bs "10.0.0.1") _ _ (bs "<<< <FilterLoad data=b'ab'>") [] _ _); [vm_compute; reflexivity|]. constructor.
Qed.

(** A version message that ends before the relay flag. *)
Definition fx_version : bytes := let p := removelast (skipn 24 (nx_version (bs "10.0.0.1"))) in
  nx_magic ++ pad_command (bs "version") ++ le_bytes 4 (zlen p) ++ ztake 4 (nx_sha (nx_sha p)) ++ p.
Example C161_relay_applies : forall odd, exists fs t, msg_parse nx_sha fx_version nx_magic = Ok (mk_message (type_of "Version") fs) /\ assoc "relay" fs = Some (VBool true) /\
  message_text false odd (mk_message (type_of "Version") fs) = Ok t.
Proof. intro odd. do 2 eexists. split; [vm_compute; reflexivity|]. split; vm_compute; reflexivity. Qed.

(** ** Assumptions *)

Print Assumptions C161_faithful_partial.
Print Assumptions C161_history_partial.
Print Assumptions C161_faithful_refuted.
Print Assumptions C161_relay.
Print Assumptions C161_debug_refuted.
