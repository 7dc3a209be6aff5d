(** The modes of operation compute SP 800-38A and can be undone. *)
From Coq Require Import ZArith List Lia Bool.
From Verif Require Import PyBase PyVal AesTables AesModel AesSpec AesProofs AesModes ModesUse ModesSpec.
Import ListNotations.
Open Scope list_scope.
Open Scope Z_scope.

(** ** Lists *)
Lemma xor_bytes_length : forall a b, List.length (xor_bytes a b) = Nat.min (List.length a) (List.length b).
Proof. induction a as [|x a IH]; intros [|y b]; cbn; auto. Qed.
Lemma xor_app : forall a b s, (List.length a <= List.length s)%nat ->
  xor_bytes (a ++ b) s = xor_bytes a s ++ xor_bytes b (skipn (List.length a) s).
Proof.
  induction a as [|x a IH]; intros b s H; [reflexivity|]. destruct s as [|y s]; [cbn in H; lia|]. cbn. f_equal. apply IH. cbn in H. lia.
Qed.
Lemma xor_prefix : forall a s t, (List.length a <= List.length s)%nat -> xor_bytes a (s ++ t) = xor_bytes a s.
Proof. induction a as [|x a IH]; intros [|y s] t H; cbn in *; try lia; try (destruct t; reflexivity). f_equal. apply IH. lia. Qed.
Lemma xor_twice : forall a s, (List.length a <= List.length s)%nat -> xor_bytes (xor_bytes a s) s = a.
Proof.
  induction a as [|x a IH]; intros s H; [reflexivity|]. destruct s as [|y s]; [cbn in H; lia|]. cbn. rewrite Z.lxor_assoc, Z.lxor_nilpotent, Z.lxor_0_r.
  f_equal. apply IH. cbn in H. lia.
Qed.
Lemma xor_firstn : forall a s, xor_bytes a (firstn (List.length a) s) = xor_bytes a s.
Proof. induction a as [|x a IH]; intros [|y s]; cbn; try reflexivity. f_equal. apply IH. Qed.
Lemma xor_wf : forall a s, Forall is_byte a -> Forall is_byte s -> Forall is_byte (xor_bytes a s).
Proof. induction a as [|x a IH]; intros [|y s] Ha Hs; cbn; try constructor; inversion Ha; inversion Hs; subst; [now apply lxor_byte|now apply IH]. Qed.
Lemma concat_16_inj (l l' : list bytes) : Forall (fun c => List.length c = 16%nat) l -> Forall (fun c => List.length c = 16%nat) l' -> concat l = concat l' -> l = l'.
Proof.
  intros H. revert l'. induction H as [|c l Hc Hl IH]; intros l' H' E.
  - inversion H' as [|c' r' Hc' Hr']; subst; [easy|]. cbn in E. destruct c'; [discriminate Hc'|discriminate E].
  - inversion H' as [|c' r' Hc' Hr']; subst.
    + cbn in E. destruct c; [discriminate Hc|discriminate E].
    + cbn in E. assert (c = c') as ->.
      { apply (f_equal (firstn 16)) in E. rewrite !firstn_app in E. rewrite Hc, Hc' in E. cbn [Nat.sub] in E.
        rewrite !firstn_O, !app_nil_r in E. rewrite <- Hc in E at 1. rewrite firstn_all in E. rewrite <- Hc' in E at 1. now rewrite firstn_all in E. }
      f_equal. apply IH; [easy|]. now apply app_inv_head in E.
Qed.

Section Object.
  Variable a : aes.
  Variables E D : list Z -> list Z.
  Hypothesis HE : forall b, block_ok b -> aes_encrypt a b = Ok (E b).
  Hypothesis HD : forall b, block_ok b -> aes_decrypt a b = Ok (D b).
  Hypothesis OE : forall b, block_ok b -> block_ok (E b).
  Hypothesis DE : forall b, block_ok b -> D (E b) = b.

  Lemma block_zlen b : block_ok b -> negb (zlen b =? 16) = false.
  Proof. intros [_ H]. unfold zlen. now rewrite H. Qed.

  (** *** ECB *)
  Lemma ecb_enc blocks : Forall block_ok blocks -> run (mode_encrypt a) ECB blocks = Ok (ecb_encrypt E blocks, ECB).
  Proof. induction 1 as [|b l Hb Hl IH]; [reflexivity|]. cbn [run mode_encrypt]. rewrite block_zlen, HE by easy. cbn. now rewrite IH. Qed.
  Lemma ecb_dec blocks : Forall block_ok blocks -> run (mode_decrypt a) ECB (ecb_encrypt E blocks) = Ok (blocks, ECB).
  Proof.
    induction 1 as [|b l Hb Hl IH]; [reflexivity|]. cbn [run mode_decrypt ecb_encrypt map]. pose proof (OE b Hb). rewrite block_zlen, HD, DE by easy.
    cbn. unfold ecb_encrypt in IH. now rewrite IH.
  Qed.
  (** *** CBC *)
  Lemma cbc_both blocks : Forall block_ok blocks -> forall iv, block_ok iv -> exists last,
    run (mode_encrypt a) (CBC iv) blocks = Ok (cbc_encrypt E iv blocks, CBC last) /\
    run (mode_decrypt a) (CBC iv) (cbc_encrypt E iv blocks) = Ok (blocks, CBC last) /\
    Forall block_ok (cbc_encrypt E iv blocks) /\ block_ok last.
  Proof.
    induction 1 as [|b l Hb Hl IH]; intros iv Hiv; [exists iv; split; [reflexivity|]; split; [reflexivity|]; split; [constructor|exact Hiv]|]. cbn [run mode_encrypt mode_decrypt cbc_encrypt]. cbv zeta.
    pose proof (block_xor b iv Hb Hiv) as Hx. pose proof (OE _ Hx) as Hc. destruct (IH _ Hc) as (last & E1 & E2 & F & L). exists last.
    rewrite !block_zlen by assumption; change xor_zip with xor_bytes; rewrite HE, HD, DE by assumption. cbn [bind fst snd]. rewrite E1, E2. cbn [bind fst snd].
    rewrite xor_twice by (destruct Hb as [_ ->], Hiv as [_ ->]; lia). repeat split; try easy; [now constructor|apply L|apply L].
  Qed.

  (** *** CFB *)
  Section Cfb.
  Variable seg : nat.
  Hypothesis Hseg : (1 <= seg <= 16)%nat.
  (** The data cut in segments. *)
  Fixpoint segments (k : nat) (l : list Z) : list (list Z) :=
    match k with O => [] | S k' => firstn seg l :: segments k' (skipn seg l) end.
  Lemma reg_ok reg c : block_ok reg -> Forall is_byte c -> List.length c = seg -> block_ok (skipn seg reg ++ c).
  Proof.
    intros [H L] Hc Lc. split.
    - apply Forall_app. split; [|easy]. rewrite <- (firstn_skipn seg reg) in H. apply Forall_app in H. easy.
    - rewrite app_length, skipn_length. lia.
  Qed.
  Fixpoint cfb_fun (enc : bool) (k : nat) (reg data : list Z) : list Z * list Z :=
    match k with
    | O => ([], reg)
    | S k' => let out := xor_bytes (firstn seg data) (E reg) in
              let c := if enc then out else firstn seg data in
              let r := cfb_fun enc k' (skipn seg reg ++ c) (skipn seg data) in (out ++ fst r, snd r)
    end.
  Lemma seg_facts k data reg : block_ok reg -> Forall is_byte data -> List.length data = (seg * S k)%nat ->
    List.length (firstn seg data) = seg /\ Forall is_byte (firstn seg data) /\ Forall is_byte (skipn seg data) /\
    List.length (skipn seg data) = (seg * k)%nat /\ List.length (xor_bytes (firstn seg data) (E reg)) = seg /\
    Forall is_byte (xor_bytes (firstn seg data) (E reg)).
  Proof.
    intros Hr Hd Hl. destruct (OE reg Hr) as [EW EL].
    assert (List.length (firstn seg data) = seg) as L by (rewrite firstn_length; nia).
    assert (Forall is_byte (firstn seg data) /\ Forall is_byte (skipn seg data)) as [H1 H2] by (rewrite <- (firstn_skipn seg data) in Hd; now apply Forall_app in Hd).
    repeat split; try assumption; [rewrite skipn_length; nia|rewrite xor_bytes_length, L, EL; lia|now apply xor_wf].
  Qed.
  Lemma cfb_loop_fun enc k : forall fuel reg data, block_ok reg -> Forall is_byte data -> List.length data = (seg * k)%nat -> (List.length data <= fuel)%nat ->
    cfb_loop fuel enc a (Z.of_nat seg) reg data = Ok (cfb_fun enc k reg data).
  Proof.
    induction k as [|k IH]; intros fuel reg data Hr Hd Hl Hf.
    - rewrite Nat.mul_0_r in Hl. destruct data; [|discriminate Hl]. destruct fuel; reflexivity.
    - destruct fuel as [|fuel]; [nia|]. destruct (seg_facts k data reg Hr Hd Hl) as (L & W1 & W2 & L2 & L3 & W3).
      cbn [cfb_loop cfb_fun]. destruct data as [|x data]; [cbn in Hl; nia|]. set (d := x :: data) in *.
      rewrite HE by assumption. cbn [bind]. rewrite !ztake_firstn, !zdrop_skipn, Nat2Z.id.
      assert (Z.to_nat (zlen (firstn seg d)) = seg) as -> by (unfold zlen; rewrite L; lia). rewrite xor_zip_spec.
      assert (xor_bytes (firstn seg d) (firstn seg (E reg)) = xor_bytes (firstn seg d) (E reg)) as -> by (rewrite <- L at 2; apply xor_firstn).
      cbv zeta. set (c := if enc then _ else _).
      assert (List.length c = seg /\ Forall is_byte c) as [Lc Wc] by (unfold c; destruct enc; split; assumption).
      replace (Z.to_nat (zlen c)) with seg by (unfold zlen; rewrite Lc; lia).
      rewrite IH by (try apply reg_ok; try assumption; lia). reflexivity.
  Qed.
  Lemma cfb_fun_reg enc k : forall reg data, block_ok reg -> Forall is_byte data -> List.length data = (seg * k)%nat ->
    block_ok (snd (cfb_fun enc k reg data)) /\ List.length (fst (cfb_fun enc k reg data)) = List.length data.
  Proof.
    induction k as [|k IH]; intros reg data Hr Hd Hl; [rewrite Nat.mul_0_r in Hl; split; [exact Hr|now rewrite Hl]|].
    destruct (seg_facts k data reg Hr Hd Hl) as (L & W1 & W2 & L2 & L3 & W3). cbn [cfb_fun]. cbv zeta. cbn [fst snd]. set (c := if enc then _ else _).
    assert (List.length c = seg /\ Forall is_byte c) as [Lc Wc] by (unfold c; destruct enc; split; assumption).
    destruct (IH (skipn seg reg ++ c) (skipn seg data)) as [A B]; [now apply reg_ok|easy|easy|].
    split; [exact A|]. rewrite app_length. unfold bytes in *. lia.
  Qed.
  Lemma cfb_fun_app enc j k : forall reg (l1 l2 : list Z), List.length l1 = (seg * k)%nat ->
    cfb_fun enc (k + j) reg (l1 ++ l2) =
    (let r := cfb_fun enc k reg l1 in let s := cfb_fun enc j (snd r) l2 in (fst r ++ fst s, snd s)).
  Proof.
    induction k as [|k IH]; intros reg l1 l2 Hl.
    - rewrite Nat.mul_0_r in Hl. destruct l1; [|discriminate Hl]. cbn. now destruct (cfb_fun enc j reg l2).
    - cbn [Nat.add cfb_fun]. cbv zeta.
      assert (firstn seg (l1 ++ l2) = firstn seg l1) as -> by (rewrite firstn_app; replace (seg - List.length l1)%nat with 0%nat by nia; now rewrite firstn_O, app_nil_r).
      assert (skipn seg (l1 ++ l2) = skipn seg l1 ++ l2) as -> by (rewrite skipn_app; now replace (seg - List.length l1)%nat with 0%nat by nia).
      rewrite IH by (rewrite skipn_length; nia). cbv zeta. cbn [fst snd]. now rewrite app_assoc.
  Qed.
  Lemma cfb_fun_spec k : forall reg data, block_ok reg -> Forall is_byte data -> List.length data = (seg * k)%nat ->
    fst (cfb_fun true k reg data) = concat (cfb_encrypt E reg (segments k data)).
  Proof.
    induction k as [|k IH]; intros reg data Hr Hd Hl; [reflexivity|].
    destruct (seg_facts k data reg Hr Hd Hl) as (L & W1 & W2 & L2 & L3 & W3).
    cbn [cfb_fun segments cfb_encrypt concat fst]. rewrite L.
    assert (xor_bytes (firstn seg data) (firstn seg (E reg)) = xor_bytes (firstn seg data) (E reg)) as -> by (rewrite <- L at 2; apply xor_firstn).
    cbv zeta. cbn [fst]. f_equal. apply IH; [now apply reg_ok|easy|easy].
  Qed.
  Lemma cfb_fun_inverse k : forall reg data, block_ok reg -> Forall is_byte data -> List.length data = (seg * k)%nat ->
    let c := fst (cfb_fun true k reg data) in
    cfb_fun false k reg c = (data, snd (cfb_fun true k reg data)) /\ Forall is_byte c.
  Proof.
    induction k as [|k IH]; intros reg data Hr Hd Hl; [rewrite Nat.mul_0_r in Hl; destruct data; [|discriminate Hl]; split; [reflexivity|constructor]|].
    destruct (seg_facts k data reg Hr Hd Hl) as (L & W1 & W2 & L2 & L3 & W3). cbn [cfb_fun]. cbv zeta. cbn [fst snd].
    set (c0 := xor_bytes (firstn seg data) (E reg)) in *.
    destruct (IH (skipn seg reg ++ c0) (skipn seg data)) as [A W]; [now apply reg_ok|easy|easy|]. cbv zeta in A, W.
    set (c := fst (cfb_fun true k (skipn seg reg ++ c0) (skipn seg data))) in *.
    assert (firstn seg (c0 ++ c) = c0) as -> by (rewrite firstn_app, L3, Nat.sub_diag, firstn_O, app_nil_r; apply firstn_all2; lia).
    assert (skipn seg (c0 ++ c) = c) as -> by (rewrite skipn_app, L3, Nat.sub_diag, skipn_all2 by lia; reflexivity).
    rewrite A. cbn [fst snd]. unfold c0 at 1. destruct (OE reg Hr) as [_ EL]. rewrite xor_twice by lia. rewrite firstn_skipn. split; [reflexivity|]. now apply Forall_app.
  Qed.
  (** Calls one after the other are one call on the concatenation. *)
  Definition cfb_call (enc : bool) : mode -> bytes -> res (bytes * mode) := if enc then mode_encrypt a else mode_decrypt a.
  Lemma seg_mod (data : bytes) : zlen data mod Z.of_nat seg = 0 -> exists k, List.length data = (seg * k)%nat.
  Proof.
    intro H. exists (List.length data / seg)%nat. unfold zlen in H. rewrite <- Nat2Z.inj_mod in H.
    apply Nat.div_exact; lia.
  Qed.
  Lemma cfb_run enc calls : Forall (Forall is_byte) calls -> Forall (fun c => zlen c mod Z.of_nat seg = 0) calls ->
    forall reg, block_ok reg -> exists k outs, List.length (concat calls) = (seg * k)%nat /\
      run (cfb_call enc) (CFB (Z.of_nat seg) reg) calls = Ok (outs, CFB (Z.of_nat seg) (snd (cfb_fun enc k reg (concat calls)))) /\
      concat outs = fst (cfb_fun enc k reg (concat calls)) /\ map (@List.length Z) outs = map (@List.length Z) calls.
  Proof.
    induction calls as [|c calls IH]; intros HW HM reg Hr.
    - exists 0%nat, []. cbn. repeat split; lia.
    - inversion HW as [|? ? Wc Wr]; subst. inversion HM as [|? ? Mc Mr]; subst. destruct (seg_mod c Mc) as (k & Hk).
      destruct (cfb_fun_reg enc k reg c Hr Wc Hk) as [R L]. destruct (IH Wr Mr _ R) as (j & outs & Hj & E1 & E2 & E3).
      exists (k + j)%nat, (fst (cfb_fun enc k reg c) :: outs). cbn [concat map run].
      assert (cfb_call enc (CFB (Z.of_nat seg) reg) c = Ok (fst (cfb_fun enc k reg c), CFB (Z.of_nat seg) (snd (cfb_fun enc k reg c)))) as ->.
      { unfold cfb_call. destruct enc; cbn [mode_encrypt mode_decrypt]; rewrite Mc; cbn [Z.eqb negb]; now rewrite (cfb_loop_fun _ k) by (easy || lia). }
      cbn [bind fst snd]. rewrite E1. cbn [bind fst snd]. rewrite cfb_fun_app by easy. cbv zeta. cbn [fst snd].
      repeat split; [rewrite app_length; nia| now rewrite E2 | now rewrite L, E3].
  Qed.
  End Cfb.

  (** *** OFB *)
  Lemma ofb_stream_length n : forall iv, block_ok iv -> List.length (ofb_stream E n iv) = (16 * n)%nat.
  Proof. induction n as [|n IH]; intros iv H; [reflexivity|]. cbn [ofb_stream]. cbv zeta. rewrite app_length, IH by now apply OE. destruct (OE iv H) as [_ ->]. lia. Qed.
  Lemma ofb_loop_spec (data : bytes) : forall (rem last : bytes) n, block_ok (last ++ rem) -> (List.length data <= List.length rem + 16 * n)%nat ->
    exists rem' last' : bytes, ofb_loop a rem last data = Ok (xor_bytes data (rem ++ ofb_stream E n (last ++ rem)), (rem', last')) /\ block_ok (last' ++ rem').
  Proof.
    induction data as [|c data IH]; intros rem last n Hb Hn; [now exists rem, last|]. cbn [ofb_loop]. destruct rem as [|p rem].
    - rewrite app_nil_r in *. destruct n as [|n]; [cbn in Hn; lia|]. rewrite HE by easy. cbn [bind fst snd]. pose proof (OE _ Hb) as HO.
      cbn [ofb_stream app]. cbv zeta. destruct (E last) as [|p rem] eqn:EL; [destruct HO as [_ HO]; discriminate HO|].
      destruct (IH rem ([] ++ [p]) n) as (rem' & last' & E1 & B); [exact HO|cbn in Hn; destruct HO as [_ HO]; cbn in HO; lia|].
      cbn [app]. cbn [app] in E1. unfold bytes in *. rewrite E1. cbn [bind fst snd app xor_bytes]. now exists rem', last'.
    - cbn [bind fst snd]. destruct (IH rem (last ++ [p]) n) as (rem' & last' & E1 & B); [now rewrite <- app_assoc|cbn in Hn; lia|].
      rewrite <- app_assoc in E1. cbn [app] in E1. unfold bytes in *. rewrite E1. cbn [bind fst snd app xor_bytes]. now exists rem', last'.
  Qed.
  Lemma ofb_loop_app d1 : forall rem last d2, ofb_loop a rem last (d1 ++ d2) =
    (let! r := ofb_loop a rem last d1 in let! s := ofb_loop a (fst (snd r)) (snd (snd r)) d2 in Ok (fst r ++ fst s, snd s)).
  Proof.
    induction d1 as [|c d1 IH]; intros rem last d2.
    - cbn [app ofb_loop bind fst snd]. destruct (ofb_loop a rem last d2) as [[o s]|e]; reflexivity.
    - cbn [app ofb_loop]. destruct (match rem with [] => _ | _ => _ end) as [[r l]|e]; [|reflexivity]. cbn [bind fst snd]. destruct r as [|p r]; [reflexivity|].
      rewrite IH. destruct (ofb_loop a r (l ++ [p]) d1) as [[o s]|e]; [|reflexivity]. cbn [bind fst snd].
      destruct (ofb_loop a (fst s) (snd s) d2) as [[o2 s2]|e]; reflexivity.
  Qed.
  Lemma ofb_run calls : forall rem last r, ofb_loop a rem last (concat calls) = Ok r ->
    exists outs, run (mode_encrypt a) (OFB rem last) calls = Ok (outs, OFB (fst (snd r)) (snd (snd r))) /\ concat outs = fst r.
  Proof.
    induction calls as [|c calls IH]; intros rem last r H; cbn [concat] in H.
    - cbn in H. assert (r = ([], (rem, last))) as -> by congruence. now exists [].
    - rewrite ofb_loop_app in H. cbn [run mode_encrypt]. destruct (ofb_loop a rem last c) as [[o s]|e]; [|discriminate H]. cbn [bind fst snd] in *.
      destruct (ofb_loop a (fst s) (snd s) (concat calls)) as [r2|e] eqn:Q; [|discriminate H]. cbn [bind fst snd] in *. assert (r = (o ++ fst r2, snd r2)) as -> by congruence.
      destruct (IH _ _ _ Q) as (outs & E1 & E2). rewrite E1. cbn [bind fst snd concat]. exists (o :: outs). cbn [concat]. now rewrite E2.
  Qed.

  (** *** CTR *)
  Definition in_range (v : Z) : Prop := 0 <= v < 2 ^ 128.
  Lemma block_of_ok v : block_ok (block_of v).
  Proof.
    unfold block_of. split; [|reflexivity]. apply Forall_forall. intros x Hx. apply in_map_iff in Hx. destruct Hx as (i & <- & _). unfold is_byte. apply Z.mod_pos_bound. lia.
  Qed.
  Lemma block_of_be v : block_of v = be_bytes 16 v.
  Proof.
    unfold block_of, be_bytes. cbn [seq map le_bytes rev app Nat.sub Z.of_nat]. rewrite !Z.div_div by lia.
    assert (v / 256 ^ 0 = v) as -> by apply Z.div_1_r.
    repeat (apply f_equal2; [reflexivity|]). reflexivity.
  Qed.
  Lemma increment_le n : forall v, 0 <= v < 256 ^ Z.of_nat n -> increment_rev (le_bytes n v) = le_bytes n ((v + 1) mod 256 ^ Z.of_nat n).
  Proof.
    induction n as [|n IH]; intros v Hv; [reflexivity|]. cbn [le_bytes increment_rev].
    rewrite Nat2Z.inj_succ, Z.pow_succ_r in * by lia. set (M := 256 ^ Z.of_nat n) in *. assert (0 < M) as HM by (apply Z.pow_pos_nonneg; lia).
    assert (((v + 1) mod (256 * M)) mod 256 = (v + 1) mod 256) as A by (rewrite Z.rem_mul_r by lia; lia).
    assert (((v + 1) mod (256 * M)) / 256 = (v + 1) / 256 mod M) as B by (rewrite Z.rem_mul_r by lia; lia).
    rewrite A, B. destruct (Z.ltb_spec (v mod 256 + 1) 256) as [H|H].
    - replace ((v + 1) / 256) with (v / 256) by lia. rewrite (Z.mod_small (v / 256)) by (split; [lia|apply Z.div_lt_upper_bound; lia]). f_equal. lia.
    - replace ((v + 1) / 256) with (v / 256 + 1) by lia. rewrite IH by (split; [lia|apply Z.div_lt_upper_bound; lia]). f_equal. lia.
  Qed.
  Lemma increment_spec v : in_range v -> counter_increment (block_of v) = block_of ((v + 1) mod 2 ^ 128).
  Proof.
    intro H. rewrite !block_of_be. unfold counter_increment, be_bytes. rewrite rev_involutive, (increment_le 16) by exact H. reflexivity.
  Qed.
  Lemma counter_init_spec v : counter_init v = block_of (v mod 2 ^ 128).
  Proof.
    unfold counter_init, block_of. cbn [seq map Nat.sub Z.of_nat]. rewrite !Z.shiftr_div_pow2 by lia.
    assert (forall i, 0 <= i <= 15 -> v / 2 ^ (8 * i) mod 256 = (v mod 2 ^ 128) / 256 ^ i mod 256) as X.
    { intros i Hi. change 256 with (2 ^ 8). rewrite <- Z.pow_mul_r by lia. 
      replace (2 ^ 128) with (2 ^ (8 * i) * 2 ^ (128 - 8 * i)) by (rewrite <- Z.pow_add_r by lia; f_equal; lia).
      set (P := 2 ^ (8 * i)). assert (0 < P) by (apply Z.pow_pos_nonneg; lia).
      replace (2 ^ (128 - 8 * i)) with (2 ^ 8 * 2 ^ (120 - 8 * i)) by (rewrite <- Z.pow_add_r by lia; f_equal; lia).
      set (Q := 2 ^ (120 - 8 * i)). assert (0 < Q) by (apply Z.pow_pos_nonneg; lia).
      rewrite (Z.rem_mul_r v P) by lia. rewrite (Z.mul_comm P), Z.div_add by lia. rewrite (Z.div_small (v mod P)) by (apply Z.mod_pos_bound; lia).
      rewrite Z.add_0_l, Z.rem_mul_r by lia. rewrite (Z.mul_comm (2 ^ 8)), Z.mod_add, Z.mod_mod by lia. reflexivity. }
    repeat match goal with |- _ :: _ = _ :: _ => f_equal end; match goal with |- v / 2 ^ ?k mod _ = _ => let i := eval cbv in (k / 8) in exact (X i ltac:(lia)) end.
  Qed.
  Definition next (v : Z) : Z := (v + 1) mod 2 ^ 128.
  Fixpoint nexts (k : nat) (v : Z) : Z := match k with O => v | S j => nexts j (next v) end.
  Lemma next_range v : in_range (next v).
  Proof. unfold in_range, next. apply Z.mod_pos_bound. lia. Qed.
  Lemma nexts_range k : forall v, in_range v -> in_range (nexts k v).
  Proof. induction k as [|k IH]; intros v H; [exact H|]. apply IH, next_range. Qed.
  Lemma ctr_stream_length n : forall v, List.length (ctr_stream E n v) = (16 * n)%nat.
  Proof. induction n as [|n IH]; intro v; [reflexivity|]. cbn [ctr_stream]. rewrite app_length, IH. destruct (OE _ (block_of_ok v)) as [_ ->]. lia. Qed.
  Lemma ctr_stream_add n m : forall v, ctr_stream E (n + m) v = ctr_stream E n v ++ ctr_stream E m (nexts n v).
  Proof. induction n as [|n IH]; intro v; [reflexivity|]. cbn [Nat.add ctr_stream nexts]. now rewrite IH, <- app_assoc. Qed.
  Lemma ctr_fill_spec fuel : forall v (rem : bytes) want, in_range v -> want <= zlen rem + 16 * Z.of_nat fuel -> exists k,
    ctr_fill fuel a (block_of v) rem want = Ok (block_of (nexts k v), rem ++ ctr_stream E k v) /\ want <= zlen rem + 16 * Z.of_nat k.
  Proof.
    induction fuel as [|fuel IH]; intros v rem want Hv Hw; cbn [ctr_fill]; destruct (Z.ltb_spec (zlen rem) want) as [H|H].
    - lia.
    - exists 0%nat. cbn. rewrite app_nil_r. split; [reflexivity|lia].
    - rewrite HE by apply block_of_ok. cbn [bind]. rewrite increment_spec by easy. destruct (OE _ (block_of_ok v)) as [_ L].
      destruct (IH (next v) (rem ++ E (block_of v)) want) as (k & E1 & Hk); [apply next_range|rewrite zlen_app; unfold zlen in *; rewrite L; lia|].
      exists (S k). unfold next in E1 at 1. rewrite E1. cbn [nexts ctr_stream]. rewrite <- app_assoc. split; [reflexivity|].
      rewrite zlen_app in Hk. unfold zlen in *. rewrite L in Hk. lia.
    - exists 0%nat. cbn. rewrite app_nil_r. split; [reflexivity|lia].
  Qed.
  Lemma ctr_call (data : bytes) v (rem : bytes) n : in_range v -> (List.length data <= List.length rem + 16 * n)%nat -> exists k rem',
    ctr_crypt a (block_of v) rem data = Ok (xor_bytes data (rem ++ ctr_stream E n v), CTR (block_of (nexts k v)) rem') /\
    (forall j, rem' ++ ctr_stream E j (nexts k v) = skipn (List.length data) (rem ++ ctr_stream E (k + j) v)) /\
    (List.length data <= List.length rem + 16 * k)%nat.
  Proof.
    intros Hv Hn. unfold ctr_crypt. destruct (ctr_fill_spec (S (List.length data)) v rem (zlen data) Hv) as (k & E1 & Hk); [unfold zlen; lia|].
    unfold zlen in Hk. rewrite E1. cbn [bind fst snd]. change xor_zip with xor_bytes.
    pose proof (ctr_stream_length k v) as Lk. pose proof (ctr_stream_length n v) as Ln.
    assert (xor_bytes data (rem ++ ctr_stream E k v) = xor_bytes data (rem ++ ctr_stream E n v)) as X.
    { destruct (Nat.le_ge_cases k n) as [H|H].
      - replace n with (k + (n - k))%nat by lia. rewrite ctr_stream_add, app_assoc. symmetry. apply xor_prefix. rewrite app_length. lia.
      - replace k with (n + (k - n))%nat by lia. rewrite ctr_stream_add, app_assoc. apply xor_prefix. rewrite app_length. lia. }
    rewrite X. eexists k, _. split; [reflexivity|]. split; [|lia].
    intro j. rewrite zdrop_skipn. unfold zlen. rewrite Nat2Z.id, xor_bytes_length, app_length, Ln.
    replace (Nat.min (List.length data) (List.length rem + 16 * n)) with (List.length data) by lia.
    rewrite ctr_stream_add, app_assoc, (skipn_app _ (rem ++ _)), app_length, Lk.
    now replace (List.length data - (List.length rem + 16 * k))%nat with 0%nat by lia.
  Qed.
  Lemma ctr_run (calls : list bytes) : forall v (rem : bytes) n, in_range v -> (List.length (concat calls) <= List.length rem + 16 * n)%nat -> exists outs m',
    run (mode_encrypt a) (CTR (block_of v) rem) calls = Ok (outs, m') /\ concat outs = xor_bytes (concat calls) (rem ++ ctr_stream E n v).
  Proof.
    induction calls as [|c calls IH]; intros v rem n Hv Hn; [eexists [], _; split; reflexivity|].
    cbn [concat] in *. rewrite app_length in Hn. cbn [run mode_encrypt].
    destruct (ctr_call c v rem n Hv) as (k & rem' & E1 & E2 & E3); [lia|]. rewrite E1. cbn [bind fst snd].
    pose proof (E2 n) as En. apply (f_equal (@List.length Z)) in En. rewrite skipn_length, !app_length, !ctr_stream_length in En.
    destruct (IH (nexts k v) rem' n) as (outs & m' & F1 & F2); [now apply nexts_range|lia|]. rewrite F1. cbn [bind fst snd].
    eexists _, _. split; [reflexivity|]. cbn [concat]. rewrite F2, E2.
    rewrite xor_app by (rewrite app_length, ctr_stream_length; lia). f_equal.
    replace (k + n)%nat with (n + k)%nat by lia. rewrite ctr_stream_add, app_assoc, (skipn_app _ (rem ++ _)). apply xor_prefix.
    rewrite skipn_length, app_length, ctr_stream_length. lia.
  Qed.
End Object.
