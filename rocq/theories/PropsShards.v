(** C163: how texts that are no shares are refused (nbc/util/piecewise.py). *)
From Coq Require Import String ZArith List Lia Bool.
From Verif Require Import PyBase PyVal FormatModel UtilModel Base58Model Base58Proofs DerModel DerProofs EcModel EcSpec KeyModel PieceModel PropsRefuse PropsKey PropsPiece.
Import ListNotations.
Open Scope string_scope.
Open Scope list_scope.
Open Scope Z_scope.

(** *** What may be raised *)
Definition ve : list exn := [ValueError].
Lemma only_each {A B} l (f : A -> res B) xs : (forall x, only l (f x)) -> only l (each f xs).
Proof.
  intro H. unfold each. induction xs as [|x xs IH]; [exact Logic.I|]. cbn [map sequence]. apply only_bind; [apply H|]. intros y _. apply only_bind; [exact IH|]. intros ys _. exact Logic.I.
Qed.
Lemma only_int : forall v acc, only ve (decode_int_loop v acc).
Proof.
  induction v as [|c v IH]; intro acc; cbn [decode_int_loop]; [exact Logic.I|]. destruct (index_of _ _ _); [apply IH|left; reflexivity].
Qed.
Lemma only_check sha v : only ve (decode_check sha v).
Proof.
  unfold decode_check, b58decode. apply only_bind; [|intros r _; exact Logic.I]. apply only_bind; [apply only_int|]. intros r _. exact Logic.I.
Qed.
Lemma only_number s : only ve (string_to_number s).
Proof. destruct s; [left; reflexivity|]. rewrite string_to_number_spec by discriminate. exact Logic.I. Qed.
Lemma order_range : 0 < cv_order S256 <= 256 ^ orderlen (cv_order S256).
Proof. split; [reflexivity|]. discriminate. Qed.
Lemma only_key z : only ve (number_to_string (z mod cv_order S256) (cv_order S256)).
Proof.
  pose proof order_range as (P & B). rewrite number_to_string_spec by exact P. pose proof (Z.mod_pos_bound z _ P) as M. destruct (Z.ltb_spec (z mod cv_order S256) 0); [left; reflexivity|]. destruct (Z.ltb_spec (z mod cv_order S256) (256 ^ orderlen (cv_order S256))); [exact Logic.I|]. generalize dependent (256 ^ orderlen (cv_order S256)). intros. lia.
Qed.
Lemma only_chr z : only ve (chr z).
Proof. unfold chr. destruct (_ && _); [exact Logic.I|left; reflexivity]. Qed.
Lemma only_item {A} (l : list A) i : only [IndexError] (item l i).
Proof. unfold item. destruct (nth_error l i); [exact Logic.I|left; reflexivity]. Qed.
Definition share_errors : list exn := [ValueError; TypeError; IndexError].
Definition gather_errors : list exn := [ValueError; AttributeError; IndexError].
Lemma ve_share {A} (r : res A) : only ve r -> only share_errors r.
Proof. apply only_incl. intros e [<-|[]]. left. reflexivity. Qed.
Lemma ve_gather {A} (r : res A) : only ve r -> only gather_errors r.
Proof. apply only_incl. intros e [<-|[]]. left. reflexivity. Qed.
Lemma ix_share {A} (r : res A) : only [IndexError] r -> only share_errors r.
Proof. apply only_incl. intros e [<-|[]]. cbn. tauto. Qed.
Lemma ix_gather {A} (r : res A) : only [IndexError] r -> only gather_errors r.
Proof. apply only_incl. intros e [<-|[]]. cbn. tauto. Qed.
Ltac that := unfold only, share_errors, gather_errors; cbn [In]; tauto.
Lemma only_wif sha k z : only share_errors (privkey_from_wif sha k z).
Proof.
  unfold privkey_from_wif. apply only_bind; [apply ve_share, only_check|]. intros key _. destruct key as [[|k0 key]|]; [that| |that].
  destruct (negb _); [that|]. destruct (zlen _ =? 33); [destruct k; [that|]; destruct (negb _); that|]. destruct (zlen _ =? 34); [|that]. destruct (negb _); [that|]. destruct k; [that|]. destruct (_ && _); that.
Qed.
Lemma only_gather_key sha ign st key : only gather_errors (gather_key sha true ign st key).
Proof.
  unfold gather_key. apply only_bind; [apply ve_gather, only_check|]. intros d _. destruct d as [k|]; [|that]. cbn [negb]. destruct (negb _); [that|].
  apply only_bind; [apply ix_gather, only_item|]. intros r _. cbv zeta. destruct (match fst st with None => false | Some _ => _ end); [destruct ign; that|].
  apply only_bind; [apply ix_gather, only_item|]. intros i _. that.
Qed.
Lemma only_gather sha ign : forall keys st, only gather_errors (gather sha true ign keys st).
Proof.
  induction keys as [|k keys IH]; intro st; cbn [gather]; [that|]. apply only_bind; [apply only_gather_key|]. intros s _. apply IH.
Qed.
Lemma only_complete sha r c : forall groups, only gather_errors (complete sha S256 r c groups).
Proof.
  induction groups as [|g gs IH]; cbn [complete]; [that|]. destruct (_ =? _); [|exact IH]. apply only_bind; [apply ve_gather, only_each; intro; apply only_number|]. intros es _. cbv zeta.
  apply only_bind; [apply ve_gather, only_key|]. intros k _. destruct (negb _); that.
Qed.
Lemma only_qr_keys : forall ds st, only share_errors (qr_keys ds st).
Proof.
  induction ds as [|d ds IH]; intro st; cbn [qr_keys]; [that|]. apply only_bind; [|intros s _; apply IH]. unfold qr_key. destruct d as [k|]; [|that]. destruct (negb _); [that|].
  apply only_bind; [apply ix_share, only_item|]. intros r _. cbv zeta. destruct (match fst st with None => false | Some _ => _ end); [that|]. apply only_bind; [apply ix_share, only_item|]. intros i _. that.
Qed.
Lemma only_b32_read : forall s acc shift out, only [TypeError] (b32_read s acc shift out).
Proof.
  induction s as [|c s IH]; intros acc shift out; cbn [b32_read]; [exact Logic.I|]. destruct (index_of _ _ _); [|left; reflexivity]. cbv zeta. destruct (_ <? _); apply IH.
Qed.
Lemma only_b32 s : only [TypeError] (b32decode s).
Proof.
  unfold b32decode. destruct (negb _); [left; reflexivity|]. cbv zeta. apply only_bind; [apply only_b32_read|]. intros r _.
  repeat match goal with |- only _ (if ?b then _ else _) => destruct b end; try exact Logic.I; left; reflexivity.
Qed.
Lemma only_qr_read sha m r c : forall fuel rest i keys, only share_errors (qr_read sha fuel m r c rest i keys).
Proof.
  induction fuel as [|f IH]; intros rest i keys; cbn [qr_read]; [that|]. destruct (_ <=? _); [|that]. cbv zeta. apply only_bind; [apply ve_share, only_chr|]. intros x _. apply only_bind; [apply ve_share, only_chr|]. intros y _. apply IH.
Qed.

(** ** C163 *)
Section Shards.
  Variable sha256 : bytes -> bytes.
  Notation combine := (combine_private_keys sha256 S256).
  Notation recombine := (partial_combine_private_keys sha256 S256 true).
  Notation qr_encode := (partial_split_qr_encode sha256 true).
  Notation qr_decode := (partial_split_qr_decode sha256 true).

  (** Whatever texts are given as keys, shares or QR codes: a result, or one of
      three exceptions. *)
  Theorem C163_combine : forall keys, only [ValueError; TypeError; IndexError] (combine keys).
  Proof.
    intro keys. unfold combine_private_keys. apply only_bind; [apply only_each; intro; apply only_wif|]. intros ks _. apply only_bind; [apply ve_share, only_each; intro; apply only_number|]. intros es _. cbv zeta.
    apply only_bind; [apply ve_share, only_key|]. intros k _. that.
  Qed.
  Theorem C163_recombine : forall arrange keys ignore_errors, only [ValueError; AttributeError; IndexError] (recombine arrange keys ignore_errors).
  Proof.
    intros arrange keys ign. unfold partial_combine_private_keys. apply only_bind; [apply only_gather|]. intros st _. destruct (fst st) as [(r, c)|]; [|that]. apply only_complete.
  Qed.
  Theorem C163_encode : forall keys, only [ValueError; TypeError; IndexError] (qr_encode keys).
  Proof.
    intro keys. unfold partial_split_qr_encode. cbn [negb]. apply only_bind; [apply ve_share, only_each; intro; apply only_check|]. intros ds _. apply only_bind; [apply only_qr_keys|]. intros st _. cbv zeta.
    apply only_bind; [apply ve_share, only_chr|]. intros m _. destruct (fst st) as [(r, c)|]; [|that]. apply only_bind; [apply ve_share, only_chr|]. intros x _. that.
  Qed.
  Theorem C163_decode : forall q, only [ValueError; TypeError; IndexError] (qr_decode q).
  Proof.
    intro q. unfold partial_split_qr_decode. cbv zeta. cbn [negb]. apply only_bind; [eapply only_incl; [|apply only_b32]; intros e [<-|[]]; cbn; tauto|]. intros b _. destruct (negb _); [that|].
    apply only_bind; [apply ix_share, only_item|]. intros m _. apply only_bind; [apply ix_share, only_item|]. intros r _. apply only_qr_read.
  Qed.

  (** A text with a wrong checksum is noticed by all three, a share that was cut
      off after its first bytes and sealed again too. *)
  Theorem C163_damaged : forall key keys arrange ignore_errors, decode_check sha256 key = Ok None ->
    combine (key :: keys) = Raise TypeError /\ recombine arrange (key :: keys) ignore_errors = Raise AttributeError /\ qr_encode [key] = Raise TypeError.
  Proof.
    intros key keys arrange ign D. split; [|split].
    - unfold combine_private_keys, each. cbn [map sequence]. unfold privkey_from_wif. rewrite D. reflexivity.
    - unfold partial_combine_private_keys. cbn [gather]. unfold gather_key. rewrite D. reflexivity.
    - unfold partial_split_qr_encode, each. cbn [negb map sequence]. rewrite D. reflexivity.
  Qed.
  Theorem C163_short : forall key p keys arrange ignore_errors, decode_check sha256 key = Ok (Some p) -> ztake 2 p = [0x10; 0x01] -> zlen p < 4 ->
    recombine arrange (key :: keys) ignore_errors = Raise IndexError /\ qr_encode [key] = Raise IndexError.
  Proof.
    intros key p keys arrange ign D T L. assert (item p 3 = Raise IndexError) as I3.
    { unfold item. destruct (nth_error p 3) eqn:E; [|reflexivity]. exfalso. assert (nth_error p 3 <> None) as N by congruence. apply nth_error_Some in N. unfold zlen in L. lia. }
    split.
    - unfold partial_combine_private_keys. cbn [gather]. unfold gather_key. rewrite D. cbn [bind negb]. rewrite T, I3. reflexivity.
    - unfold partial_split_qr_encode, each. cbn [negb map sequence]. rewrite D. cbn [bind qr_keys]. unfold qr_key. rewrite T, I3. reflexivity.
  Qed.
  (** The same for a code that was cut off.  (Python 3 accepts no partial keys and
      no codes at all: C51_python3_refuted, C52_python3_refuted.) *)
  Theorem C163_cut_code : forall q b, let padding := (zlen q * 5 - 9 * 8) mod 32 in
    b32decode (q ++ repeat 61 (Z.to_nat padding)) = Ok b -> ztake 3 b = [0x84; 0x7c; 0x20] -> zlen b < 5 -> qr_decode q = Raise IndexError.
  Proof.
    intros q b padding D T L. unfold partial_split_qr_decode. cbv zeta. cbn [negb]. fold padding. rewrite D. cbn [bind]. rewrite T. change (negb (bytes_eqb [132; 124; 32] [132; 124; 32])) with false. cbn iota.
    unfold item. destruct (nth_error b 3); [|reflexivity]. cbn [bind]. destruct (nth_error b 4) eqn:E; [|reflexivity]. exfalso. assert (nth_error b 4 <> None) as N by congruence. apply nth_error_Some in N. unfold zlen in L. lia.
  Qed.
End Shards.

(** Each of the exceptions occurs. *)
Definition sx_short : bytes := encode_check toy [0x10; 0x01; 5].
Definition sx_damaged : bytes := b58encode ([0x10; 0x01; 5; 2] ++ [1; 2; 3; 4]).
Definition sx_code : bytes := b32encode [0x84; 0x7c; 0x20; 0].
Example C163_applies : decode_check toy sx_damaged = Ok None /\ decode_check toy sx_short = Ok (Some [0x10; 0x01; 5]) /\
  combine_private_keys toy S256 [sx_damaged] = Raise TypeError /\ combine_private_keys toy S256 [[48]] = Raise ValueError /\ combine_private_keys toy S256 [encode_check toy []] = Raise IndexError /\
  (forall ign, partial_combine_private_keys toy S256 true (fun d => d) [sx_damaged] ign = Raise AttributeError /\ partial_combine_private_keys toy S256 true (fun d => d) [sx_short] ign = Raise IndexError /\
    partial_combine_private_keys toy S256 true (fun d => d) [[48]] ign = Raise ValueError) /\
  partial_split_qr_encode toy true [sx_short] = Raise IndexError /\ partial_split_qr_encode toy true [sx_damaged] = Raise TypeError /\ partial_split_qr_encode toy true [[48]] = Raise ValueError /\
  b32decode sx_code = Ok [0x84; 0x7c; 0x20; 0] /\ partial_split_qr_decode toy true sx_code = Raise IndexError /\ partial_split_qr_decode toy true [48] = Raise TypeError /\ partial_split_qr_decode toy true (b32encode [1; 2; 3; 4; 5]) = Raise ValueError.
Proof.
  repeat (split; [vm_compute; reflexivity|]). split; [intros [|]; repeat split; vm_compute; reflexivity|]. repeat split; vm_compute; reflexivity.
Qed.

(** ** Assumptions *)

Print Assumptions C163_combine.
Print Assumptions C163_recombine.
Print Assumptions C163_encode.
Print Assumptions C163_decode.
Print Assumptions C163_damaged.
Print Assumptions C163_short.
Print Assumptions C163_cut_code.
