(** C135: the key files follow the published formats. *)
From Coq Require Import String ZArith List Lia Bool Ascii.
From Verif Require Import PyBase DerModel DerProofs KeyModel KeySpec PropsKey KeyProofs KeyDer PemModel PropsSign EcSpec EcModel EcLib PemProofs.
Import ListNotations.
Open Scope string_scope.
Open Scope list_scope.
Open Scope Z_scope.

(** ** Specification *)
(** Bytes from hexadecimal digits. *)
Definition nibble (c : ascii) : Z := let n := Z.of_nat (nat_of_ascii c) in if n <? 58 then n - 48 else n - 87.
Fixpoint hex (s : string) : bytes :=
  match s with
  | String a (String b r) => (16 * nibble a + nibble b) :: hex r
  | _ => []
  end.
(** The number as [w] bytes, most significant first. *)
Definition octets (w : Z) (s : bytes) (n : Z) : Prop := wf_bytes s /\ zlen s = w /\ be_val s = n.
(** A curve, the length of its coordinates in bytes, what precedes the
    coordinates in a public key (RFC 5480, the object identifiers of X9.62 and
    SEC 2), and what precedes the private number and what stands between it
    and the coordinates in a private key (RFC 5915). *)
Record standard : Type := mk_standard { st_curve : curve_info; st_width : Z; st_public : string; st_private : string; st_between : string }.
Definition standards : list standard :=
  [ mk_standard NIST192p 24 "3049301306072a8648ce3d020106082a8648ce3d03010103320004" "305f0201010418" "a00a06082a8648ce3d030101a13403320004";
    mk_standard NIST224p 28 "304e301006072a8648ce3d020106052b81040021033a0004" "3068020101041c" "a00706052b81040021a13c033a0004";
    mk_standard NIST256p 32 "3059301306072a8648ce3d020106082a8648ce3d03010703420004" "30770201010420" "a00a06082a8648ce3d030107a14403420004";
    mk_standard NIST384p 48 "3076301006072a8648ce3d020106052b8104002203620004" "3081a40201010430" "a00706052b81040022a16403620004";
    mk_standard NIST521p 66 "30819b301006072a8648ce3d020106052b810400230381860004" "3081dc0201010442" "a00706052b81040023a181890381860004";
    mk_standard SECP256k1 32 "3056301006072a8648ce3d020106052b8104000a03420004" "30740201010420" "a00706052b8104000aa14403420004" ].

(** ** Proofs *)
Lemma bits_of n l s : zlen s = n -> encode_length n = Ok l -> encode_bitstring s = Ok ([3] ++ l ++ s).
Proof. intros <- E. unfold encode_bitstring. now rewrite E. Qed.
Lemma octs_of n l s : zlen s = n -> encode_length n = Ok l -> encode_octet_string s = Ok ([4] ++ l ++ s).
Proof. intros <- E. unfold encode_octet_string. now rewrite E. Qed.
Lemma seq_of n l ps : zlen (concat ps) = n -> encode_length n = Ok l -> encode_sequence ps = Ok ([0x30] ++ l ++ concat ps).
Proof. intros <- E. unfold encode_sequence. now rewrite E. Qed.
Lemma cons_of n l t c s : zlen s = n -> encode_length n = Ok l -> int2byte (0xa0 + t) = Ok c -> encode_constructed t s = Ok (c ++ l ++ s).
Proof. intros <- E C. unfold encode_constructed. now rewrite C, E. Qed.
(** What the two formats need of a curve. *)
Definition public_layout (s : standard) : Prop := forall xs ys, zlen xs = st_width s -> zlen ys = st_width s ->
  (let! opk := encoded_oid oid_ecPublicKey in
   let! oc := encoded_oid (cv_oid (st_curve s)) in
   let! a := encode_sequence [opk; oc] in
   let! b := encode_bitstring ([0; 4] ++ xs ++ ys) in
   encode_sequence [a; b]) = Ok (hex (st_public s) ++ xs ++ ys).
Definition private_layout (s : standard) : Prop := forall ds xs ys, zlen ds = st_width s -> zlen xs = st_width s -> zlen ys = st_width s ->
  (let! one := encode_integer 1 in
   let! os := encode_octet_string ds in
   let! oc := encoded_oid (cv_oid (st_curve s)) in
   let! c0 := encode_constructed 0 oc in
   let! bs := encode_bitstring ([0; 4] ++ xs ++ ys) in
   let! c1 := encode_constructed 1 bs in
   encode_sequence [one; os; c0; c1]) = Ok (hex (st_private s) ++ ds ++ hex (st_between s) ++ xs ++ ys).
Lemma public_make s opk oc a lb ls : encoded_oid oid_ecPublicKey = Ok opk -> encoded_oid (cv_oid (st_curve s)) = Ok oc -> encode_sequence [opk; oc] = Ok a ->
  encode_length (2 + (st_width s + st_width s)) = Ok lb -> encode_length (zlen a + (1 + (zlen lb + (2 + (st_width s + st_width s))))) = Ok ls ->
  hex (st_public s) = [0x30] ++ ls ++ a ++ [3] ++ lb ++ [0; 4] -> public_layout s.
Proof.
  intros E1 E2 E3 E4 E5 E6 xs ys Hx Hy. rewrite E1, E2. cbn [bind]. rewrite E3. cbn [bind]. rewrite (bits_of _ _ ([0; 4] ++ xs ++ ys) ltac:(rewrite !zlen_app, Hx, Hy; reflexivity) E4). cbn [bind].
  etransitivity; [eapply seq_of; [|exact E5]; cbn [concat]; rewrite app_nil_r, !zlen_app, Hx, Hy; reflexivity|]. rewrite E6. cbn [concat]. rewrite app_nil_r, <- !app_assoc. reflexivity.
Qed.
Lemma private_make s one lo oc c0 lb lc ls : encode_integer 1 = Ok one -> encode_length (st_width s) = Ok lo -> encoded_oid (cv_oid (st_curve s)) = Ok oc -> encode_constructed 0 oc = Ok c0 ->
  encode_length (2 + (st_width s + st_width s)) = Ok lb -> encode_length (1 + (zlen lb + (2 + (st_width s + st_width s)))) = Ok lc ->
  encode_length (zlen one + (1 + (zlen lo + st_width s) + (zlen c0 + (1 + (zlen lc + (1 + (zlen lb + (2 + (st_width s + st_width s))))))))) = Ok ls ->
  hex (st_private s) = [0x30] ++ ls ++ one ++ [4] ++ lo -> hex (st_between s) = c0 ++ [0xa1] ++ lc ++ [3] ++ lb ++ [0; 4] -> private_layout s.
Proof.
  intros E1 E2 E3 E4 E5 E6 E7 E8 E9 ds xs ys Hd Hx Hy. rewrite E1. cbn [bind]. rewrite (octs_of _ _ ds Hd E2). cbn [bind]. rewrite E3. cbn [bind]. rewrite E4. cbn [bind].
  rewrite (bits_of _ _ ([0; 4] ++ xs ++ ys) ltac:(rewrite !zlen_app, Hx, Hy; reflexivity) E5). cbn [bind].
  rewrite (cons_of _ lc 1 [0xa1] ([3] ++ lb ++ [0; 4] ++ xs ++ ys) ltac:(rewrite !zlen_app, Hx, Hy; reflexivity) E6 eq_refl). cbn [bind].
  etransitivity; [eapply seq_of; [|exact E7]; cbn [concat]; rewrite app_nil_r, !zlen_app, Hd, Hx, Hy; reflexivity|]. rewrite E8, E9. cbn [concat]. rewrite app_nil_r, <- !app_assoc. reflexivity.
Qed.
Lemma publics s : In s standards -> public_layout s.
Proof.
  intro I. unfold standards in I. cbn [In] in I. destruct I as [<-|[<-|[<-|[<-|[<-|[<-|[]]]]]]]; (eapply public_make; [vm_compute; reflexivity..|]); vm_compute; reflexivity.
Qed.
Lemma privates s : In s standards -> private_layout s.
Proof.
  intro I. unfold standards in I. cbn [In] in I. destruct I as [<-|[<-|[<-|[<-|[<-|[<-|[]]]]]]]; (eapply private_make; [vm_compute; reflexivity..| |]); vm_compute; reflexivity.
Qed.
Lemma width_of s : In s standards -> In (st_curve s) curves /\ cv_baselen (st_curve s) = st_width s.
Proof.
  intro I. unfold standards in I. cbn [In] in I. destruct I as [<-|[<-|[<-|[<-|[<-|[<-|[]]]]]]]; (split; [cbn; tauto|vm_compute; reflexivity]).
Qed.
Lemma number_octets cv z : In cv curves -> 0 <= z < cv_order cv -> exists s, number_to_string z (cv_order cv) = Ok s /\ octets (cv_baselen cv) s z.
Proof.
  intros I Hz. assert (0 < cv_order cv) as H0 by lia. rewrite (number_to_string_spec z _ H0). destruct (orderlen_spec _ H0) as (A & B & C). destruct (Z.ltb_spec z 0); [lia|]. unfold cv_baselen. set (l := orderlen (cv_order cv)) in *.
  destruct (Z.ltb_spec z (256 ^ l)); [|lia]. eexists. split; [reflexivity|]. split; [apply wf_be_bytes|]. rewrite zlen_be_bytes. split; [lia|]. apply be_val_be_bytes_small. rewrite Z2Nat.id by lia. lia.
Qed.

(** ** C135 *)
(** Every curve of the library is in the table. *)
Theorem C135_curves : map st_curve standards = curves.
Proof. reflexivity. Qed.
Theorem C135_public s k x y : In s standards -> is_vkey (st_curve s) k x y ->
  exists xs ys, octets (st_width s) xs x /\ octets (st_width s) ys y /\ vk_to_string k = Ok (xs ++ ys) /\ vk_to_der k = Ok (hex (st_public s) ++ xs ++ ys).
Proof.
  intros I (E & C & On & Hx & Hy & _). destruct (width_of s I) as (Ic & W). rewrite <- W. set (cv := st_curve s) in *.
  assert (0 <= x /\ 0 <= y) as (Px & Py) by (destruct On as (A & B & _); lia).
  destruct (number_octets cv x Ic (conj Px Hx)) as (xs & Nx & Ox). destruct (number_octets cv y Ic (conj Py Hy)) as (ys & Ny & Oy). exists xs, ys. split; [exact Ox|]. split; [exact Oy|].
  assert (point_strings (vk_curve k) (vk_point k) = Ok (xs, ys)) as P. { rewrite E. unfold point_strings. destruct (vk_point k) as [|x' y' o]; [discriminate|]. cbn [coords] in C. assert (x' = x /\ y' = y) as (-> & ->) by (split; congruence). rewrite Nx. cbn [bind]. rewrite Ny. reflexivity. }
  unfold vk_to_string, vk_to_der. rewrite P. cbn [bind fst snd]. split; [reflexivity|]. rewrite E. apply (publics s I); [rewrite <- W; apply Ox|rewrite <- W; apply Oy].
Qed.
Theorem C135_private s d k : In s standards -> sk_from_secret_exponent (st_curve s) d = Ok k ->
  exists x y ds xs ys, is_vkey (st_curve s) (sk_vk k) x y /\ octets (st_width s) ds d /\ octets (st_width s) xs x /\ octets (st_width s) ys y /\
  sk_to_string k = Ok ds /\ sk_to_der k = Ok (hex (st_private s) ++ ds ++ hex (st_between s) ++ xs ++ ys).
Proof.
  intros I H. destruct (width_of s I) as (Ic & W). destruct (all_certified _ Ic) as (_ & HG & Hn & Hy & Hb). destruct (sk_from_to_string _ HG Hn Hy k d H) as (ds & Es & Ws & Ls & Vs & _). destruct (sk_vk_ok _ HG Hn Hy k d H) as (x & y & Hk & _ & Ec & Ed).
  apply is_vkey_of in Hk. destruct (C135_public s (sk_vk k) x y I Hk) as (xs & ys & Ox & Oy & Ev & _). exists x, y, ds, xs, ys. rewrite W in Ls. split; [exact Hk|]. split; [split; [exact Ws|split; [exact Ls|exact Vs]]|]. split; [exact Ox|]. split; [exact Oy|]. split; [exact Es|].
  unfold sk_to_der. rewrite Ev. cbn [bind]. rewrite Es, Ec. exact (privates s I ds xs ys Ls (proj1 (proj2 Ox)) (proj1 (proj2 Oy))).
Qed.

(** ** The text files *)
(** RFC 4648: the text of [s] is a row of characters for the numbers [ds] of six
    bits, then [p] times '='; the bits of [ds] are those of [s] and fewer than
    six zeros, and the length is a multiple of four. *)
Definition base64_letters : bytes := bs "ABCDEFGHIJKLMNOPQRSTUVWXYZabcdefghijklmnopqrstuvwxyz0123456789+/".
Definition value64 (ds : list Z) : Z := fold_left (fun v d => 64 * v + d) ds 0.
Definition base64_text (s t : bytes) : Prop := exists ds p, Forall (fun d => 0 <= d < 64) ds /\
  t = map (fun d => nth (Z.to_nat d) base64_letters 0) ds ++ repeat 61 p /\ 0 <= 6 * zlen ds - 8 * zlen s < 6 /\
  value64 ds = be_val s * 2 ^ (6 * zlen ds - 8 * zlen s) /\ (4 | zlen t) /\ (p < 4)%nat.
Lemma letter d : 0 <= d < 64 -> b64_char d = nth (Z.to_nat d) base64_letters 0.
Proof.
  intro H. assert (forallb (fun n => b64_char (Z.of_nat n) =? nth n base64_letters 0) (seq 0 64) = true) as F by (vm_compute; reflexivity). rewrite forallb_forall in F.
  specialize (F (Z.to_nat d) ltac:(apply in_seq; lia)). apply Z.eqb_eq in F. now rewrite Z2Nat.id in F by lia.
Qed.
Lemma value64_app a b : value64 (a ++ b) = value64 a * 64 ^ zlen b + value64 b.
Proof.
  unfold value64. rewrite fold_left_app. generalize (fold_left (fun v d => 64 * v + d) a 0). induction b as [|x b IH] using rev_ind; intro v; [cbn; change (zlen (@nil Z)) with 0; lia|].
  rewrite !fold_left_app, IH. cbn [fold_left]. rewrite zlen_app. change (zlen [x]) with 1. rewrite Z.pow_add_r by (pose proof (zlen_nonneg b); lia). lia.
Qed.
Lemma base64_group a b c r t : is_byte a -> is_byte b -> is_byte c -> base64_text r t ->
  base64_text (a :: b :: c :: r) ([b64_char (a / 4); b64_char (a mod 4 * 16 + b / 16); b64_char (b mod 16 * 4 + c / 64); b64_char (c mod 64)] ++ t).
Proof.
  intros Ha Hb Hc (ds & p & F & -> & Hl & V & D & P). unfold is_byte in *.
  pose proof (Z.div_mod a 4 ltac:(lia)). pose proof (Z.mod_pos_bound a 4 ltac:(lia)). pose proof (Z.div_mod b 16 ltac:(lia)). pose proof (Z.mod_pos_bound b 16 ltac:(lia)). pose proof (Z.div_mod c 64 ltac:(lia)). pose proof (Z.mod_pos_bound c 64 ltac:(lia)).
  set (q := [a / 4; a mod 4 * 16 + b / 16; b mod 16 * 4 + c / 64; c mod 64]).
  assert (Forall (fun d => 0 <= d < 64) q) as Fq by (unfold q; repeat (constructor; [lia|]); constructor).
  exists (q ++ ds), p. split; [now apply Forall_app|]. split.
  { rewrite map_app, <- app_assoc. f_equal. unfold q. cbn [map]. inversion Fq as [|? ? F1 G1]; subst. inversion G1 as [|? ? F2 G2]; subst. inversion G2 as [|? ? F3 G3]; subst. inversion G3 as [|? ? F4 G4]; subst. now rewrite !letter by assumption. }
  rewrite zlen_app, !zlen_cons. change (zlen q) with 4. replace (6 * (4 + zlen ds) - 8 * (1 + (1 + (1 + zlen r)))) with (6 * zlen ds - 8 * zlen r) by lia. split; [exact Hl|]. split; [|split; [|exact P]].
  - rewrite value64_app, V. change (a :: b :: c :: r) with ([a; b; c] ++ r). rewrite be_val_app. change (value64 q) with (64 * (64 * (64 * (64 * 0 + a / 4) + (a mod 4 * 16 + b / 16)) + (b mod 16 * 4 + c / 64)) + c mod 64). replace (be_val [a; b; c]) with (256 * (256 * a + b) + c) by (unfold be_val; cbn [rev app le_val]; lia).
    assert (64 ^ zlen ds = 256 ^ zlen r * 2 ^ (6 * zlen ds - 8 * zlen r)) as ->.
    { pose proof (zlen_nonneg r). change 64 with (2 ^ 6). change 256 with (2 ^ 8). rewrite <- !Z.pow_mul_r, <- Z.pow_add_r by lia. f_equal. lia. }
    set (X := 2 ^ _). set (Y := 256 ^ zlen r). nia.
  - rewrite zlen_app. change (zlen [b64_char (a / 4); b64_char (a mod 4 * 16 + b / 16); b64_char (b mod 16 * 4 + c / 64); b64_char (c mod 64)]) with 4. apply Z.divide_add_r; [exists 1; reflexivity|exact D].
Qed.
Lemma base64_ok n : forall s, (List.length s <= n)%nat -> wf_bytes s -> base64_text s (b64encode s).
Proof.
  induction n as [|n IH]; intros s L W.
  - destruct s; [|cbn in L; lia]. exists [], 0%nat. split; [constructor|]. cbn. repeat split; try lia. exists 0. reflexivity.
  - destruct s as [|a [|b [|c r]]].
    + exists [], 0%nat. split; [constructor|]. cbn. repeat split; try lia. exists 0. reflexivity.
    + inversion W as [|? ? Ha _]; subst. unfold is_byte in Ha. pose proof (Z.div_mod a 4 ltac:(lia)). pose proof (Z.mod_pos_bound a 4 ltac:(lia)). exists [a / 4; a mod 4 * 16], 2%nat. assert (0 <= a / 4 < 64 /\ 0 <= a mod 4 * 16 < 64) as (F1 & F2) by lia.
      split; [constructor; [exact F1|constructor; [exact F2|constructor]]|]. split; [cbn [b64encode map repeat app]; now rewrite !letter by assumption|]. split; [unfold zlen; cbn; lia|]. split; [|split; [exists 1; reflexivity|lia]].
      replace (be_val [a]) with a by (unfold be_val; cbn [rev app le_val]; lia). change (64 * (64 * 0 + a / 4) + a mod 4 * 16 = a * 16). lia.
    + inversion W as [|? ? Ha W']; subst. inversion W' as [|? ? Hb _]; subst. unfold is_byte in Ha, Hb. pose proof (Z.div_mod a 4 ltac:(lia)). pose proof (Z.mod_pos_bound a 4 ltac:(lia)). pose proof (Z.div_mod b 16 ltac:(lia)). pose proof (Z.mod_pos_bound b 16 ltac:(lia)).
      exists [a / 4; a mod 4 * 16 + b / 16; b mod 16 * 4], 1%nat. assert (0 <= a / 4 < 64 /\ 0 <= a mod 4 * 16 + b / 16 < 64 /\ 0 <= b mod 16 * 4 < 64) as (F1 & F2 & F3) by lia.
      split; [constructor; [exact F1|constructor; [exact F2|constructor; [exact F3|constructor]]]|]. split; [cbn [b64encode map repeat app]; now rewrite !letter by assumption|]. split; [unfold zlen; cbn; lia|]. split; [|split; [exists 1; reflexivity|lia]].
      replace (be_val [a; b]) with (256 * a + b) by (unfold be_val; cbn [rev app le_val]; lia). change (64 * (64 * (64 * 0 + a / 4) + (a mod 4 * 16 + b / 16)) + b mod 16 * 4 = (256 * a + b) * 4). lia.
    + inversion W as [|? ? Ha W1]; subst. inversion W1 as [|? ? Hb W2]; subst. inversion W2 as [|? ? Hc W3]; subst. apply (base64_group a b c r (b64encode r)); try assumption. apply IH; [cbn in L; lia|exact W3].
Qed.
(** A key file: a line naming the kind of key, lines of 64 characters, the last
    one possibly shorter, which are the base64 text of the bytes, a last line. *)
Definition key_file (kind : bytes) (der file : bytes) : Prop := exists ls,
  file = concat (map (fun l => l ++ [10]) ((bs "-----BEGIN " ++ kind ++ bs "-----") :: ls ++ [bs "-----END " ++ kind ++ bs "-----"])) /\
  base64_text der (concat ls) /\ Forall (fun l => 1 <= zlen l <= 64) ls /\ (forall a l b, ls = a ++ l :: b -> b <> [] -> zlen l = 64).
Lemma file_of der kind : wf_bytes der -> key_file kind der (topem der kind).
Proof. intro W. destruct (C86_shape der kind W) as (ls & E & C & F & G). exists ls. split; [exact E|]. rewrite C. split; [exact (base64_ok _ der (le_n _) W)|]. split; assumption. Qed.
Theorem C135_public_file s k x y : In s standards -> is_vkey (st_curve s) k x y ->
  exists der file, vk_to_der k = Ok der /\ vk_to_pem k = Ok file /\ key_file (bs "PUBLIC KEY") der file.
Proof.
  intros I H. destruct (C37_verifying_key_der _ k x y (proj1 (width_of s I)) H) as (der & k' & E & W & _). exists der. eexists. split; [exact E|]. unfold vk_to_pem. rewrite E. split; [reflexivity|]. now apply file_of.
Qed.
Theorem C135_private_file s d k : In s standards -> sk_from_secret_exponent (st_curve s) d = Ok k ->
  exists der file, sk_to_der k = Ok der /\ sk_to_pem k = Ok file /\ key_file (bs "EC PRIVATE KEY") der file.
Proof.
  intros I H. destruct (C37_signing_key_der _ d k (proj1 (width_of s I)) H) as (der & E & W & _). exists der. eexists. split; [exact E|]. unfold sk_to_pem. rewrite E. split; [reflexivity|]. now apply file_of.
Qed.
(** The key of the private key 1 of secp256k1. *)
Example C135_applies : exists s k, In s standards /\ sk_from_secret_exponent (st_curve s) 1 = Ok k /\ is_vkey (st_curve s) (sk_vk k) (g_x generator_secp256k1) (g_y generator_secp256k1).
Proof.
  destruct C37_applies as (k & E & H). exists (mk_standard SECP256k1 32 "3056301006072a8648ce3d020106052b8104000a03420004" "30740201010420" "a00706052b8104000aa14403420004"), k. split; [unfold standards; cbn [In]; tauto|]. split; [exact E|exact H].
Qed.
Example C135_base64_applies : base64_text (bs "key") (bs "a2V5") /\ base64_text (bs "keys") (bs "a2V5cw==").
Proof. split; [exact (base64_ok 3 (bs "key") ltac:(cbn; lia) ltac:(repeat constructor; lia))|exact (base64_ok 4 (bs "keys") ltac:(cbn; lia) ltac:(repeat constructor; lia))]. Qed.

(** ** C31, what is compressed *)
(** Exactly the 65 bytes 4, x, y are compressed; the point is not checked. *)
Theorem C31_compressed k k' : compress_public_key k = Ok k' <->
  exists xs ys, k = 4 :: xs ++ ys /\ zlen xs = 32 /\ zlen ys = 32 /\ k' = (2 + be_val ys mod 2) :: xs.
Proof.
  split.
  - unfold compress_public_key. destruct k as [|ch k]; [discriminate|]. destruct (Z.eqb_spec ch 4) as [->|]; [|discriminate]. cbn [negb orb]. destruct (Z.eqb_spec (zlen (4 :: k)) 65) as [L|]; [|discriminate]. cbn [negb].
    rewrite zlen_cons in L. unfold slice. change (zdrop 1 (4 :: k)) with (zdrop 0 k). replace (zdrop 33 (4 :: k)) with (zdrop 32 k) by reflexivity. rewrite zdrop_0.
    assert (zlen (ztake 32 k) = 32) as L1 by (rewrite zlen_ztake; lia). assert (zlen (zdrop 32 k) = 32) as L2 by (rewrite zlen_zdrop; lia).
    replace (ztake (65 - 33) (zdrop 32 k)) with (zdrop 32 k) by (symmetry; apply ztake_all; lia). rewrite string_to_number_spec by (intro Z0; rewrite Z0 in L2; discriminate). cbn [bind].
    intro E. exists (ztake 32 k), (zdrop 32 k). split; [now rewrite ztake_zdrop|]. split; [exact L1|]. split; [exact L2|]. change (33 - 1) with 32 in E. rewrite land1 in E. cbn [app] in E. congruence.
  - intros (xs & ys & -> & L1 & L2 & ->). unfold compress_public_key. cbn [Z.eqb]. change (4 =? 4) with true. rewrite zlen_cons, zlen_app, L1, L2. change (1 + (32 + 32) =? 65) with true. cbn [negb orb].
    unfold slice. change (zdrop 1 (4 :: xs ++ ys)) with (zdrop 0 (xs ++ ys)). replace (zdrop 33 (4 :: xs ++ ys)) with (zdrop 32 (xs ++ ys)) by reflexivity. rewrite zdrop_0, (zdrop_app_exact xs ys 32) by lia.
    rewrite (ztake_all ys) by lia. rewrite string_to_number_spec by (intro Z0; rewrite Z0 in L2; discriminate). cbn [bind]. rewrite (ztake_app_exact xs ys) by lia. now rewrite land1.
Qed.

(** ** Assumptions *)

Print Assumptions C135_curves.
Print Assumptions C135_public.
Print Assumptions C135_private.
Print Assumptions C135_public_file.
Print Assumptions C135_private_file.
Print Assumptions C31_compressed.
