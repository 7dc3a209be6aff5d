(** QR codes of sets of partial keys. *)
From Coq Require Import String ZArith List Lia Bool Permutation Sorting.Sorted.
From Verif Require Import PyBase PyVal FormatModel Base58Model Base58Proofs DerModel DerProofs NtModel EcModel KeyModel KeySpec KeyProofs PieceModel PieceB32 PieceProofs.
Import ListNotations.
Open Scope string_scope.
Open Scope list_scope.
Open Scope Z_scope.

(** ** Sorting *)
Lemma insert_perm x l : Permutation (insert x l) (x :: l).
Proof. induction l as [|y l IH]; cbn [insert]; [constructor; constructor|]. destruct (pair_leb x y); [apply Permutation_refl|]. rewrite IH. apply perm_swap. Qed.
Lemma sort_perm l : Permutation (sort l) l.
Proof. induction l as [|x l IH]; [constructor|]. cbn [sort fold_right]. fold (sort l). rewrite insert_perm. now constructor. Qed.
Lemma insert_sorted x l : StronglySorted (fun a b => fst a <= fst b) l -> StronglySorted (fun a b => fst a <= fst b) (insert x l).
Proof.
  induction 1 as [|y l H IH F]; cbn [insert]; [constructor; constructor|]. unfold pair_leb. destruct (Z.ltb_spec (fst x) (fst y)) as [L|L].
  - constructor; [now constructor|]. constructor; [lia|]. eapply Forall_impl; [|exact F]. cbn. intros. lia.
  - assert (StronglySorted (fun a b => fst a <= fst b) (y :: insert x l)) as G. { constructor; [exact IH|]. apply (Permutation_Forall (Permutation_sym (insert_perm x l))). constructor; [lia|exact F]. }
    destruct (Z.eqb_spec (fst x) (fst y)) as [E|E]; [|exact G]. destruct (bytes_leb (snd x) (snd y)); [|exact G]. constructor; [now constructor|]. constructor; [lia|]. eapply Forall_impl; [|exact F]. cbn. intros. lia.
Qed.
Lemma sort_sorted l : StronglySorted (fun a b => fst a <= fst b) (sort l).
Proof. induction l as [|x l IH]; [constructor|]. now apply insert_sorted. Qed.
Lemma sorted_strict l : NoDup (map fst l) -> StronglySorted (fun a b : Z * bytes => fst a <= fst b) l -> StronglySorted Z.lt (map fst l).
Proof.
  intros N H. induction H as [|y l H IH F]; cbn [map] in *; [constructor|]. inversion N as [|? ? N1 N2]; subst. constructor; [now apply IH|]. apply Forall_forall. intros z Hz. assert (z <> fst y) by (intros ->; contradiction).
  apply in_map_iff in Hz. destruct Hz as (p & <- & Hp). rewrite Forall_forall in F. specialize (F p Hp). cbn in F. lia.
Qed.

(** ** The indices that the reader gives to the keys *)
Fixpoint indices (missing index : Z) (count : nat) : list Z :=
  match count with O => [] | S n => let i := if index =? missing then index + 1 else index in i :: indices missing (i + 1) n end.
Lemma indices_len m k n : List.length (indices m k n) = n.
Proof. revert k. induction n as [|n IH]; intro k; [reflexivity|]. cbn [indices List.length]. now rewrite IH. Qed.
Lemma indices_bound m k n : Forall (fun i => k <= i <= k + Z.of_nat n) (indices m k n).
Proof.
  revert k. assert (forall n k, m < k -> Forall (fun i => k <= i < k + Z.of_nat n) (indices m k n)) as After.
  { clear. induction n as [|n IH]; intros k Hk; [constructor|]. cbn [indices]. destruct (Z.eqb_spec k m); [lia|]. constructor; [lia|]. eapply Forall_impl; [|apply IH; lia]. cbn. intros. lia. }
  induction n as [|n IH]; intro k; [constructor|]. cbn [indices]. destruct (Z.eqb_spec k m) as [->|Nk].
  - constructor; [lia|]. eapply Forall_impl; [|apply After; lia]. cbn. intros. lia.
  - constructor; [lia|]. eapply Forall_impl; [|apply IH]. cbn. intros. lia.
Qed.
Lemma find_missing_ge k (l : list (Z * bytes)) : k <= find_missing k l <= k + zlen l.
Proof. revert k. induction l as [|(i & s) l IH]; intro k; cbn [find_missing]; [unfold zlen; cbn; lia|]. rewrite zlen_cons. pose proof (zlen_nonneg l). destruct (i =? k); [specialize (IH (k + 1)); lia|lia]. Qed.
Lemma sorted_indices l k : StronglySorted Z.lt (map fst l) -> Forall (fun i => k <= i <= k + zlen l) (map fst l) -> map fst l = indices (find_missing k l) k (List.length l).
Proof.
  revert k. assert (forall (l : list (Z * bytes)) m k, m < k -> StronglySorted Z.lt (map fst l) -> Forall (fun i => k <= i < k + zlen l) (map fst l) -> map fst l = indices m k (List.length l)) as After.
  { clear. induction l as [|(i & s) l IH]; intros m k Hm Hs F; [reflexivity|]. cbn [map fst List.length indices] in *. inversion Hs as [|? ? Hs' G]; subst. inversion F as [|? ? Fi F']; subst. rewrite zlen_cons in *. destruct (Z.eqb_spec k m); [lia|].
    assert (i = k) as ->. { assert (forall (l : list (Z * bytes)) i hi, StronglySorted Z.lt (map fst l) -> Forall (Z.lt i) (map fst l) -> Forall (fun j => j < hi) (map fst l) -> i < hi -> i + zlen l < hi) as B.
      { clear. induction l as [|(j & s) l IH]; intros i hi H L U I; [unfold zlen; cbn; lia|]. cbn [map fst] in *. inversion H; subst. inversion L; subst. inversion U; subst. rewrite zlen_cons. specialize (IH j hi ltac:(assumption) ltac:(assumption) ltac:(assumption) ltac:(assumption)). lia. }
      specialize (B l i (k + (1 + zlen l)) Hs' G). assert (Forall (fun j => j < k + (1 + zlen l)) (map fst l)) as U by (eapply Forall_impl; [|exact F']; cbv beta; intros; rewrite ?zlen_cons in *; lia). specialize (B U ltac:(lia)). lia. }
    f_equal. apply IH; [lia|exact Hs'|]. apply Forall_forall. intros j Hj. rewrite Forall_forall in G, F'. specialize (G j Hj). specialize (F' j Hj). cbv beta in F'. rewrite ?zlen_cons in F'. lia. }
  induction l as [|(i & s) l IH]; intros k Hs F; [reflexivity|]. cbn [map fst List.length find_missing indices] in *. inversion Hs as [|? ? Hs' G]; subst. inversion F as [|? ? Fi F']; subst. rewrite zlen_cons in *. rewrite Forall_forall in G.
  destruct (Z.eqb_spec i k) as [->|Ni].
  - pose proof (find_missing_ge (k + 1) l). destruct (Z.eqb_spec k (find_missing (k + 1) l)); [lia|]. f_equal. apply IH; [exact Hs'|]. apply Forall_forall. intros j Hj. rewrite Forall_forall in F'. specialize (G j Hj). specialize (F' j Hj). cbv beta in F'. rewrite ?zlen_cons in F'. lia.
  - rewrite Z.eqb_refl. assert (Forall (fun j => k + 1 <= j < k + 1 + zlen ((i, s) :: l)) (map fst ((i, s) :: l))) as F2.
    { rewrite zlen_cons. cbn [map fst]. constructor; [lia|]. apply Forall_forall. intros j Hj. rewrite Forall_forall in F'. specialize (G j Hj). specialize (F' j Hj). cbv beta in F'. rewrite ?zlen_cons in F'. lia. }
    specialize (After ((i, s) :: l) k (k + 1) ltac:(lia) Hs F2). cbn [map fst List.length indices] in After. destruct (Z.eqb_spec (k + 1) k); [lia|]. exact After.
Qed.
Lemma padding r : 0 <= r -> ((8 * (9 + 32 * r) + 4) / 5 * 5 - 72) mod 32 = (- ((8 * (9 + 32 * r) + 4) / 5)) mod 8 <-> r mod 5 = 3 \/ r mod 5 = 4.
Proof.
  intro Hr. pose proof (Z.div_mod r 5 ltac:(lia)) as D. pose proof (Z.mod_pos_bound r 5 ltac:(lia)) as B. set (t := r / 5) in *. set (j := r mod 5) in *. rewrite D.
  replace (8 * (9 + 32 * (5 * t + j)) + 4) with (76 + 256 * j + (256 * t) * 5) by lia. rewrite Z.div_add by lia. set (a := (76 + 256 * j) / 5).
  replace ((a + 256 * t) * 5 - 72) with (a * 5 - 72 + (40 * t) * 32) by lia. rewrite Z.mod_add by lia. replace (- (a + 256 * t)) with (- a + (- 32 * t) * 8) by lia. rewrite Z.mod_add by lia.
  assert (j = 0 \/ j = 1 \/ j = 2 \/ j = 3 \/ j = 4) as C by lia. unfold a. clear - C. clearbody j. destruct C as [->|[->|[->|[->| ->]]]]; vm_compute; split; try tauto; try discriminate; intros [H|H]; discriminate H.
Qed.

Section Qr.
  Variable sha256 : bytes -> bytes.
  Hypothesis Hsha : forall d, wf_bytes (sha256 d) /\ zlen (sha256 d) = 32.
  Variables (required : Z) (c : bytes).
  Hypothesis Hreq : 0 <= required < 256.
  Hypothesis Hc : wf_bytes c /\ zlen c = 4.
  Notation ptext := (ptext sha256 required c).
  Notation raw := (raw required c).
  Definition cell (p : nat * Z) : Z * bytes := (Z.of_nat (fst p), be_bytes 32 (snd p)).

  Lemma qr_step p st : fits p -> (fst st = None \/ fst st = Some (required, c)) ->
    qr_key st (Some (raw (fst p) (be_bytes 32 (snd p)))) = Ok (Some (required, c), snd st ++ [cell p]).
  Proof.
    intros (Hi & He) Hst. unfold qr_key, PieceProofs.raw. change (ztake 2 ([16; 1] ++ [Z.of_nat (fst p)] ++ [required] ++ c ++ be_bytes 32 (snd p))) with [16; 1]. cbn [bytes_eqb Z.eqb Pos.eqb andb negb].
    change (item ([16; 1] ++ [Z.of_nat (fst p)] ++ [required] ++ c ++ be_bytes 32 (snd p)) 3) with (Ok required : res Z).
    change (item ([16; 1] ++ [Z.of_nat (fst p)] ++ [required] ++ c ++ be_bytes 32 (snd p)) 2) with (Ok (Z.of_nat (fst p)) : res Z). cbn [bind]. cbv zeta.
    assert (slice 4 8 ([16; 1] ++ [Z.of_nat (fst p)] ++ [required] ++ c ++ be_bytes 32 (snd p)) = c) as ->.
    { unfold slice. change ([16; 1] ++ [Z.of_nat (fst p)] ++ [required] ++ c ++ be_bytes 32 (snd p)) with ([16; 1; Z.of_nat (fst p); required] ++ c ++ be_bytes 32 (snd p)). rewrite (zdrop_app_exact [16; 1; Z.of_nat (fst p); required]) by reflexivity. change (8 - 4) with 4. rewrite ztake_app_exact; [reflexivity|]. destruct Hc as (_ & ->). reflexivity. }
    assert (zdrop 8 ([16; 1] ++ [Z.of_nat (fst p)] ++ [required] ++ c ++ be_bytes 32 (snd p)) = be_bytes 32 (snd p)) as ->.
    { change ([16; 1] ++ [Z.of_nat (fst p)] ++ [required] ++ c ++ be_bytes 32 (snd p)) with ([16; 1; Z.of_nat (fst p); required] ++ c ++ be_bytes 32 (snd p)). rewrite app_assoc. apply zdrop_app_exact. rewrite zlen_app. destruct Hc as (_ & ->). reflexivity. }
    destruct Hst as [-> | ->]; [reflexivity|]. rewrite Z.eqb_refl. destruct (bytes_eqb_spec c c); [|congruence]. reflexivity.
  Qed.
  Lemma qr_keys_spec ks : Forall fits ks -> ks <> [] -> qr_keys (map (fun p => Some (raw (fst p) (be_bytes 32 (snd p)))) ks) (None, []) = Ok (Some (required, c), map cell ks).
  Proof.
    assert (forall ks st, Forall fits ks -> ks <> [] -> fst st = None \/ fst st = Some (required, c) -> qr_keys (map (fun p => Some (raw (fst p) (be_bytes 32 (snd p)))) ks) st = Ok (Some (required, c), snd st ++ map cell ks)) as L.
    { clear ks. induction ks as [|p ks IH]; intros st F N Hst; [congruence|]. inversion F as [|? ? Hp F']; subst. cbn [map qr_keys]. rewrite (qr_step p st Hp Hst). cbn [bind]. destruct ks as [|q ks]; [reflexivity|].
      rewrite (IH (Some (required, c), snd st ++ [cell p]) F' ltac:(discriminate) ltac:(now right)). cbn [snd]. now rewrite <- app_assoc. }
    intros F N. rewrite (L ks (None, []) F N ltac:(now left)). reflexivity.
  Qed.
  (** The octets behind the code. *)
  Definition qr_octets (ks : list (nat * Z)) : bytes :=
    [0x84; 0x7c; 0x20] ++ [find_missing 0 (sort (map cell ks))] ++ [required] ++ c ++ concat (map snd (sort (map cell ks))).
  Lemma cells_len ks : zlen (sort (map cell ks)) = zlen ks.
  Proof. unfold zlen. f_equal. rewrite (Permutation_length (sort_perm _)). apply map_length. Qed.
  Lemma cell_shape ks : Forall (fun q => wf_bytes (snd q) /\ zlen (snd q) = 32) (sort (map cell ks)).
  Proof. apply (Permutation_Forall (Permutation_sym (sort_perm _))). apply Forall_map, Forall_forall. intros p _. unfold cell. cbn [snd]. split; [apply wf_be_bytes|apply zlen_be_bytes]. Qed.
  Lemma encode_spec ks : Forall fits ks -> ks <> [] -> zlen ks < 256 -> partial_split_qr_encode sha256 true (map ptext ks) = Ok (strip_pad (b32encode (qr_octets ks))).
  Proof.
    intros F N L. unfold partial_split_qr_encode. cbn [negb].
    assert (each (decode_check sha256) (map ptext ks) = Ok (map (fun p => Some (raw (fst p) (be_bytes 32 (snd p)))) ks)) as ->.
    { apply each_ok. clear N L. induction F as [|p ks Hp F IH]; [constructor|]. cbn [map]. constructor; [|exact IH]. exact (ptext_decode sha256 Hsha required c Hreq Hc p Hp). }
    cbn [bind]. rewrite (qr_keys_spec ks F N). cbn [bind fst snd]. cbv zeta. pose proof (find_missing_ge 0 (sort (map cell ks))) as M. rewrite cells_len in M.
    unfold chr. assert ((0 <=? find_missing 0 (sort (map cell ks))) && (find_missing 0 (sort (map cell ks)) <? 256) = true) as -> by lia. cbn [bind]. assert ((0 <=? required) && (required <? 256) = true) as -> by lia. reflexivity.
  Qed.
  Definition text (q : Z * bytes) : bytes := ptext (Z.to_nat (fst q), be_val (snd q)).
  Definition relabelled (ks : list (nat * Z)) : list (Z * bytes) :=
    List.combine (indices (find_missing 0 (sort (map cell ks))) 0 (List.length ks)) (map snd (sort (map cell ks))).
  Lemma read_spec missing l : forall fuel index keys, Forall (fun s => wf_bytes s /\ zlen s = 32) l -> (List.length l <= fuel)%nat -> 0 <= index -> index + zlen l + (if index <=? missing then 1 else 0) <= 256 ->
    exists out, qr_read sha256 fuel missing required c (concat l) index keys = Ok out /\ forall t, In t out <-> In t keys \/ In t (map text (List.combine (indices missing index (List.length l)) l)).
  Proof.
    induction l as [|s l IH]; intros fuel index keys F Hf H0 H1.
    - exists keys. split; [destruct fuel; reflexivity|]. intro t. cbn. tauto.
    - inversion F as [|? ? (Hs & Ls) F']; subst. destruct fuel as [|fuel]; [cbn in Hf; lia|]. cbn [List.length] in Hf. cbn [qr_read concat]. rewrite zlen_cons in H1. pose proof (zlen_nonneg l). rewrite zlen_app, Ls. pose proof (zlen_nonneg (concat l)). destruct (Z.leb_spec 32 (32 + zlen (concat l))); [|lia]. cbv zeta.
      rewrite ztake_app_exact by (symmetry; exact Ls). rewrite zdrop_app_exact by (symmetry; exact Ls). cbn [List.length indices List.combine map]. cbv zeta. set (i := if index =? missing then index + 1 else index). assert (0 <= i < 256 /\ i + 1 + zlen l + (if i + 1 <=? missing then 1 else 0) <= 256) as (Hi & Hn).
      { unfold i. destruct (Z.eqb_spec index missing) as [->|Ni]; [rewrite Z.leb_refl in H1; destruct (Z.leb_spec (missing + 1 + 1) missing); lia|]. destruct (Z.leb_spec index missing), (Z.leb_spec (index + 1) missing); lia. }
      unfold chr. assert ((0 <=? i) && (i <? 256) = true) as -> by lia. cbn [bind]. assert ((0 <=? required) && (required <? 256) = true) as -> by lia. cbn [bind].
      assert (encode_check sha256 ([16; 1] ++ [i] ++ [required] ++ c ++ s) = text (i, s)) as ->.
      { unfold text, PieceProofs.ptext, PieceProofs.raw. cbn [fst snd]. rewrite Z2Nat.id by lia. replace (be_bytes 32 (be_val s)) with s; [reflexivity|]. symmetry. change 32%nat with (Z.to_nat 32). rewrite <- Ls. unfold zlen. rewrite Nat2Z.id. apply be_bytes_be_val. exact Hs. }
      destruct (IH fuel (i + 1) (set_add (text (i, s)) keys) F' ltac:(lia) ltac:(lia) Hn) as (out & E & B). exists out. split; [exact E|]. intro t. rewrite B, set_add_in. cbn [In]. intuition congruence.
  Qed.
  Lemma concat_len l : Forall (fun s : bytes => wf_bytes s /\ zlen s = 32) l -> zlen (concat l) = 32 * zlen l /\ wf_bytes (concat l).
  Proof.
    induction 1 as [|s l (W & L) F (IH1 & IH2)]; [split; [reflexivity|constructor]|]. cbn [concat]. rewrite zlen_app, zlen_cons, L, IH1. split; [lia|]. apply wf_bytes_app. now split.
  Qed.
  Lemma cell_shape' ks : Forall (fun s => wf_bytes s /\ zlen s = 32) (map snd (sort (map cell ks))).
  Proof. apply Forall_map. exact (cell_shape ks). Qed.
  Lemma decode_spec ks : ks <> [] -> zlen ks < 256 ->
    (zlen ks mod 5 = 3 \/ zlen ks mod 5 = 4 -> exists out, partial_split_qr_decode sha256 true (strip_pad (b32encode (qr_octets ks))) = Ok out /\ forall t, In t out <-> In t (map text (relabelled ks))) /\
    (~ (zlen ks mod 5 = 3 \/ zlen ks mod 5 = 4) -> partial_split_qr_decode sha256 true (strip_pad (b32encode (qr_octets ks))) = Raise TypeError).
  Proof.
    intros N L. pose proof (find_missing_ge 0 (sort (map cell ks))) as M. rewrite cells_len in M. destruct (concat_len _ (cell_shape' ks)) as (CL & CW). set (m := find_missing 0 (sort (map cell ks))) in *. set (l := map snd (sort (map cell ks))) in *.
    assert (zlen l = zlen ks) as Ll by (unfold l; rewrite zlen_map; apply cells_len). rewrite Ll in CL. destruct Hc as (Wc & Lc).
    assert (zlen (qr_octets ks) = 9 + 32 * zlen ks) as Q. { unfold qr_octets. fold m l. rewrite !zlen_app, Lc, CL. change (zlen [132; 124; 32]) with 3. change (zlen [m]) with 1. change (zlen [required]) with 1. lia. }
    assert (wf_bytes (qr_octets ks)) as W. { unfold qr_octets. fold m l. repeat (apply wf_bytes_app; split); try assumption; repeat constructor; unfold is_byte; lia. }
    destruct (b32_text (qr_octets ks) W) as (t & -> & Lt & _ & D). unfold partial_split_qr_decode. cbn [negb]. cbv zeta. rewrite D. rewrite Lt, Q. pose proof (zlen_nonneg ks) as P0. pose proof (padding (zlen ks) P0) as Pd. set (x := (8 * (9 + 32 * zlen ks) + 4) / 5) in *.
    change (9 * 8) with 72. rewrite Z2Nat.id by (apply Z.mod_pos_bound; lia). destruct (Z.eqb_spec ((x * 5 - 72) mod 32) ((- x) mod 8)) as [E|E]; split; intro R; try tauto.
    - clear D Lt E Pd R. cbn [bind]. unfold qr_octets. fold m l. change (ztake 3 ([132; 124; 32] ++ [m] ++ [required] ++ c ++ concat l)) with [132; 124; 32]. cbn [bytes_eqb Z.eqb Pos.eqb andb negb].
      change (item ([132; 124; 32] ++ [m] ++ [required] ++ c ++ concat l) 3) with (Ok m : res Z). change (item ([132; 124; 32] ++ [m] ++ [required] ++ c ++ concat l) 4) with (Ok required : res Z). cbn [bind].
      change ([132; 124; 32] ++ [m] ++ [required] ++ c ++ concat l) with ([132; 124; 32; m; required] ++ c ++ concat l).
      unfold slice. rewrite (zdrop_app_exact [132; 124; 32; m; required]) by reflexivity. change (9 - 5) with 4. rewrite ztake_app_exact by (symmetry; exact Lc).
      rewrite (app_assoc _ c). rewrite (zdrop_app_exact ([132; 124; 32; m; required] ++ c)) by (rewrite zlen_app, Lc; reflexivity).
      destruct (read_spec m l (List.length (([132; 124; 32; m; required] ++ c) ++ concat l)) 0 [] (cell_shape' ks)) as (out & E & B).
      + unfold zlen in CL, Ll, Lc. rewrite !app_length. lia.
      + lia.
      + rewrite Ll. destruct (0 <=? m); lia.
      + exists out. split; [exact E|]. intro t'. rewrite B. unfold relabelled. fold m l. replace (List.length l) with (List.length ks) by (unfold zlen in Ll; lia). cbn. tauto.
  Qed.
  Lemma text_cell p : fits p -> text (cell p) = ptext p.
  Proof. intros (Hi & He). unfold text, cell. cbn [fst snd]. rewrite Nat2Z.id. rewrite be_val_be_bytes_small by exact He. now destruct p. Qed.
  Lemma combine_split {A B} (l : list (A * B)) : List.combine (map fst l) (map snd l) = l.
  Proof. induction l as [|(a & b) l IH]; [reflexivity|]. cbn. now rewrite IH. Qed.
  Lemma relabel_same ks : Forall fits ks -> NoDup (map fst ks) -> zlen ks < 256 ->
    ((forall t, In t (map text (relabelled ks)) <-> In t (map ptext ks)) <-> Forall (fun p => Z.of_nat (fst p) <= zlen ks) ks).
  Proof.
    intros F N L. set (l := sort (map cell ks)). assert (Permutation l (map cell ks)) as P by apply sort_perm. assert (map fst (map cell ks) = map Z.of_nat (map fst ks)) as Ef by (rewrite !map_map; reflexivity).
    split.
    - intro H. apply Forall_forall. intros p Hp. assert (In (ptext p) (map text (relabelled ks))) as G by (apply H; now apply in_map). apply in_map_iff in G. destruct G as ((i & s) & E & G). rewrite Forall_forall in F. unfold relabelled in G. fold l in G.
      pose proof (in_combine_l _ _ _ _ G) as G1. pose proof (in_combine_r _ _ _ _ G) as G2. pose proof (indices_bound (find_missing 0 l) 0 (List.length ks)) as B. rewrite Forall_forall in B. specialize (B i G1). cbv beta in B.
      pose proof (cell_shape' ks) as S. rewrite Forall_forall in S. destruct (S s G2) as (Ws & Ls). unfold text in E. cbn [fst snd] in E. unfold zlen in L |- *.
      apply (ptext_inj sha256 Hsha required c Hreq Hc) in E; [rewrite <- E; cbn [fst]; lia| |now apply F]. split; cbn [fst snd]; [lia|]. rewrite <- Ls. now apply be_val_bound.
    - intro H. assert (map fst l = indices (find_missing 0 l) 0 (List.length l)) as Ei.
      { apply sorted_indices.
        - apply sorted_strict; [|apply sort_sorted]. apply (Permutation_NoDup (Permutation_map fst (Permutation_sym P))). rewrite Ef. apply FinFun.Injective_map_NoDup; [|exact N]. intros a b. lia.
        - unfold l. rewrite cells_len. fold l. apply (Permutation_Forall (Permutation_map fst (Permutation_sym P))). rewrite Ef. apply Forall_map, Forall_map. eapply Forall_impl; [|exact H]. cbn. intros. lia. }
      assert (List.length l = List.length ks) as Ll by (rewrite (Permutation_length P); apply map_length). intro t. unfold relabelled. fold l. rewrite <- Ll, <- Ei, combine_split.
      assert (map text (map cell ks) = map ptext ks) as <- by (rewrite map_map; apply map_ext_in; intros p Hp; apply text_cell; rewrite Forall_forall in F; now apply F).
      split; apply Permutation_in, Permutation_map; [exact P|now apply Permutation_sym].
  Qed.
End Qr.
