(** C105, continued: how a message that cannot be shown fails. *)
From Coq Require Import String ZArith List Lia Bool.
From Verif Require Import PyBase PyVal FormatModel FormatProofs MessagesModel NodeModel LogModel PropsLog PropsRefuse.
Import ListNotations.
Open Scope string_scope.
Open Scope list_scope.
Open Scope Z_scope.

Definition show_errors : list exn := [TypeError; StructError; KeyError; IndexError; AttributeError; ValueError; UnicodeError; OverflowError].
Ltac err := unfold only, show_errors; cbn [In]; tauto.
Ltac fine := first [exact Logic.I|err].

Lemma r_pack f big x : only show_errors (struct_pack f big x).
Proof. unfold struct_pack. destruct (struct_range f). destruct (_ && _); fine. Qed.
Lemma r_unpack f big d : only show_errors (struct_unpack f big d).
Proof. unfold struct_unpack. destruct (_ =? _); fine. Qed.
Lemma r_trunc x : only show_errors (float_trunc x).
Proof. destruct x; cbn [float_trunc]; fine. Qed.
Lemma r_num f big v : only show_errors (num_binary f big v).
Proof. destruct v; cbn [num_binary]; try fine; try apply r_pack. apply only_bind; [apply r_trunc|]. intros; apply r_pack. Qed.
Lemma r_varint x : only show_errors (varint_binary x).
Proof. unfold varint_binary. repeat match goal with |- context [if ?c then _ else _] => destruct c end; try apply r_pack; (apply only_bind; [apply r_pack|intros; fine]). Qed.
Lemma r_varint_parse d : only show_errors (varint_parse d).
Proof. unfold varint_parse. destruct d as [|v d]; [fine|]. repeat match goal with |- context [if ?c then _ else _] => destruct c end; try fine; (apply only_bind; [apply r_unpack|intros; fine]). Qed.
Lemma r_groups s : only show_errors (ipv6_groups s).
Proof. unfold ipv6_groups. repeat match goal with |- context [if ?c then _ else _] => destruct c end; try fine. destruct (ipv6_fill _ _); [|fine]. destruct (forallb _ _); fine. Qed.
Lemma r_ip v : only show_errors (ip_binary v).
Proof.
  destruct v; cbn [ip_binary]; try fine. destruct (ipv4_groups _); [fine|]. apply only_bind; [apply r_groups|]. intros [g|] _; [|fine]. unfold pack_groups. destruct (_ && _); fine.
Qed.
Lemma r_varstr v : only show_errors (varstr_binary v).
Proof. unfold varstr_binary. apply only_bind; [destruct v; try fine; unfold latin1; destruct (forallb _ _); fine|]. intros s _. apply only_bind; [apply r_varint|]. intros; fine. Qed.
Lemma r_varstr_parse d : only show_errors (varstr_parse d).
Proof. unfold varstr_parse. apply only_bind; [apply r_varint_parse|]. intros (vl & n) _. fine. Qed.
Lemma r_items {A} (p : bytes -> res (Z * A)) : (forall d, only show_errors (p d)) -> forall n d off, only show_errors (parse_items p n d off).
Proof. intro H. induction n as [|n IH]; intros d off; cbn [parse_items]; [fine|]. apply only_bind; [apply H|]. intros (len & x) _. apply only_bind; [apply IH|]. intros (o & xs) _. fine. Qed.
Lemma r_set {A} (p : bytes -> res (Z * A)) d : (forall d, only show_errors (p d)) -> only show_errors (parse_var_set p d).
Proof. intro H. unfold parse_var_set. apply only_bind; [apply r_varint_parse|]. intros (o & c) _. now apply r_items. Qed.
Lemma r_sequence {A} (l : list (res A)) : Forall (only show_errors) l -> only show_errors (sequence l).
Proof. induction 1 as [|m l H _ IH]; cbn [sequence]; [fine|]. apply only_bind; [exact H|]. intros a _. apply only_bind; [exact IH|]. intros; fine. Qed.
Lemma r_binary t : forall v, only show_errors (binary t v).
Proof.
  induction t using ft_ind'; intro v; cbn [binary].
  - apply r_num.
  - destruct v; try fine; apply r_varint.
  - apply r_ip.
  - destruct v; fine.
  - apply r_varstr.
  - assert (forall l, only show_errors (let! n := varint_binary (zlen l) in let! items := sequence (map (binary t) l) in Ok (n ++ concat items))) as K.
    { intro l. apply only_bind; [apply r_varint|]. intros n _. apply only_bind; [apply r_sequence; apply Forall_map, Forall_forall; intros x _; apply IHt|]. intros; fine. }
    destruct v; try fine; apply K.
  - destruct v as [| | | | | | | |c' fs|]; try fine. induction ps as [|(k & vt) r IH]; [fine|]. inversion H as [|? ? H1 H2]; subst. destruct (assoc k fs); [|fine]. apply only_bind; [apply H1|]. intros b _. apply only_bind; [now apply IH|]. intros; fine.
  - destruct v as [| | | | | | | |c' fs|]; try fine. apply only_bind; [|intros; fine]. induction ps as [|(k & vt) r IH]; [fine|]. inversion H as [|? ? H1 H2]; subst. destruct (assoc k fs); [|fine]. apply only_bind; [apply H1|]. intros b _. apply only_bind; [now apply IH|]. intros; fine.
  - apply IHt.
Qed.
Lemma r_fields_binary ps fs : only show_errors (fields_binary ps fs).
Proof. induction ps as [|(k & vt) r IH]; cbn [fields_binary]; [fine|]. destruct (assoc k fs); [|fine]. apply only_bind; [apply r_binary|]. intros b _. apply only_bind; [exact IH|]. intros; fine. Qed.
Lemma r_hex v : only show_errors (hexlify_ok v). Proof. destruct v; cbn [hexlify_ok]; fine. Qed.
Lemma r_prop k fs : only show_errors (prop k fs). Proof. unfold prop. destruct (assoc k fs); fine. Qed.
Lemma r_str t : forall v, only show_errors (str_ft t v).
Proof.
  induction t using ft_ind'; intro v; cbn [str_ft]; try fine; try apply r_hex.
  - assert (forall l, only show_errors (let! _ := sequence (map (str_ft t) l) in if str_is_bytes t && negb (is_nil l) then Raise TypeError else Ok tt)) as K.
    { intro l. apply only_bind; [apply r_sequence; apply Forall_map, Forall_forall; intros x _; apply IHt|]. intros _ _. destruct (_ && _); fine. }
    destruct v; try fine; apply K.
  - destruct v as [| | | | | | | |c' fs|]; try fine. induction ps as [|(k & vt) r IH]; [fine|]. inversion H as [|? ? H1 H2]; subst. destruct (assoc k fs); [|fine]. apply only_bind; [apply H1|]. intros b _. now apply IH.
  - destruct v as [| | | | | | | |c' fs|]; try fine. induction ps as [|(k & vt) r IH]; [fine|]. inversion H as [|? ? H1 H2]; subst. destruct (assoc k fs); [|fine]. apply only_bind; [apply H1|]. intros b _. now apply IH.
  - apply IHt.
Qed.
Lemma r_str_fields ps fs : only show_errors (str_fields ps fs).
Proof. induction ps as [|(k & vt) r IH]; cbn [str_fields]; [fine|]. destruct (assoc k fs); [|fine]. apply only_bind; [apply r_str|]. intros _ _. exact IH. Qed.
Lemma r_debug_value v : only show_errors (debug_value v).
Proof.
  unfold debug_value. destruct v as [| | | | | | | |c fs|]; try fine. repeat match goal with |- context [if String.eqb ?a ?b then _ else _] => destruct (String.eqb a b) end; try apply r_str_fields; try fine.
  - apply only_bind; [apply r_prop|]. intros _ _. apply only_bind; [apply r_prop|]. intros v _. destruct v; fine.
  - apply only_bind; [apply r_prop|]. intros t _. apply only_bind; [apply r_prop|]. intros h _. apply only_bind; [destruct t; try fine; destruct (_ && _); fine|]. intros _ _. apply r_hex.
  - apply only_bind; [apply r_fields_binary|]. intros; fine.
  - apply only_bind; [apply r_fields_binary|]. intros; fine.
Qed.
Lemma r_debug_params ks fs : only show_errors (debug_params ks fs).
Proof.
  induction ks as [|k ks IH]; cbn [debug_params]; [fine|]. apply only_bind; [apply r_prop|]. intros v _. apply only_bind; [|intros _ _; exact IH]. unfold debug_param. destruct v as [| | | | | |[|x l]|[|x l]| |]; apply r_debug_value.
Qed.
Lemma r_fill d e : snd (alert_fill d) = Some e -> In e show_errors.
Proof.
  assert (forall A (r : res A) e', only show_errors r -> r = Raise e' -> In e' show_errors) as K by (intros A r e' H ->; exact H).
  unfold alert_fill. destruct (alert_head _) as [[[[[v r] x] i] c]|e1] eqn:E1.
  2: { intro H. injection H as <-. apply (K _ _ _) in E1; [exact E1|]. unfold alert_head. destruct (negb _); [fine|]. repeat (apply only_bind; [apply r_unpack|]; intros ? _). fine. }
  repeat match goal with
  | |- snd (match ?m with Ok _ => _ | Raise _ => _ end) = _ -> _ =>
      let E := fresh "E" in destruct m as [[? ?]|?] eqn:E;
      [|intro H; injection H as <-; apply (K _ _ _) in E; [exact E|]; first [apply r_varstr_parse|apply r_unpack|apply r_set; intro d'; cbn [parse]; first [apply r_varstr_parse|unfold num_parse; apply only_bind; [apply r_unpack|intros; fine]]|
         unfold alert_vers; destruct (negb _); [fine|]; repeat (apply only_bind; [apply r_unpack|]; intros ? _); fine]]
  | |- snd (match ?m with Ok _ => _ | Raise _ => _ end) = _ -> _ =>
      let E := fresh "E" in destruct m as [?|?] eqn:E;
      [|intro H; injection H as <-; apply (K _ _ _) in E; [exact E|]; apply r_unpack]
  end.
  discriminate.
Qed.
Lemma r_alert fs cache n : only show_errors (alert_read fs cache n).
Proof.
  unfold alert_read. apply only_bind; [apply r_prop|]. intros v _. destruct v; try fine. unfold alert_get. pose proof (r_fill s) as F. destruct (if is_nil cache then _ else _) as (c & err) eqn:E. destruct err as [e|].
  - cbn [bind only]. destruct (is_nil cache); [|congruence]. apply F. now rewrite E.
  - destruct (assoc n c); cbn [bind]; fine.
Qed.
Lemma r_alerts fs ns : forall cache, only show_errors (alert_read_all fs cache ns).
Proof. induction ns as [|n ns IH]; intro cache; cbn [alert_read_all]; [fine|]. apply only_bind; [apply r_alert|]. intros (v & c) _. apply IH. Qed.
Lemma r_header fs : only show_errors (debug_header fs).
Proof.
  unfold debug_header. repeat (apply only_bind; [apply r_prop|]; intros ? _).
  assert (forall v, only show_errors (pack_int v)) as K1 by (intros v; destruct v; cbn [pack_int]; try fine; apply r_pack). assert (forall v, only show_errors (pack_bytes v)) as K2 by (intros v; destruct v; cbn [pack_bytes]; fine).
  repeat (apply only_bind; [first [apply K1|apply K2]|]; intros ? _). fine.
Qed.

(** Whatever the message and the level, rendering it succeeds or raises one of
    eight exceptions: never those by which the node tells malformed and unknown
    messages, so that a message which cannot be shown is reported as a failure of
    the node, not of the peer. *)
Theorem C105_raises level m : only [TypeError; StructError; KeyError; IndexError; AttributeError; ValueError; UnicodeError; OverflowError] (log_message level m).
Proof.
  change (only show_errors (log_message level m)). unfold log_message. destruct (_ <=? _); [|destruct (_ <=? _); [|fine]].
  - unfold msg_str. destruct (String.eqb _ _); [|apply r_str_fields]. unfold alert_str. apply only_bind; [apply r_alerts|]. intros c _. apply only_bind; [apply r_alert|]. intros (s & c') _. apply only_bind; [destruct s as [| | | | | |[|]| | |]; fine|]. intros _ _. apply only_bind; [apply r_alerts|]. intros; fine.
  - unfold msg_debug. repeat match goal with |- context [if existsb ?f ?l then _ else _] => destruct (existsb f l) end; try apply r_debug_params; try fine.
    + apply only_bind; [apply r_prop|]. intros v _. assert (forall l, only show_errors (let! _ := sequence (map hexlify_ok l) in Ok tt)) as K by (intro l; apply only_bind; [apply r_sequence, Forall_map, Forall_forall; intros x _; apply r_hex|intros; fine]). destruct v; try fine; apply K.
    + apply only_bind; [apply r_header|]. intros _ _. apply r_debug_params.
    + apply only_bind; [apply r_prop|]. intros v _. apply r_hex.
    + apply only_bind; [apply r_alert|]. intros; fine.
Qed.

(** ** Assumptions *)

Print Assumptions C105_raises.
