(** Hierarchical keys. *)
From Coq Require Import ZArith Znumtheory Lia Bool List String.
From Verif Require Import Base M_Hash M_Codec M_Keys M_EC M_HD S_Codec S_Keys S_EC S_HD P_Codec P_Keys P_ECProps P_SecpPrime P_SecpOrder P_PubKey P_DSA.
Import ListNotations.
Open Scope Z_scope.

Lemma a2b_iff t b : a2b_hashed_base58 t = Ok b <-> check_text b t.
Proof.
  assert (Q : a2b_hashed_base58 t = Ok b <-> decode_base58h t = Ok b).
  { unfold decode_base58h, recatch. destruct (a2b_hashed_base58 t) as [p|e]; [reflexivity|]. destruct (is_utils_encoding e); split; discriminate. }
  rewrite Q, decode_base58h_iff. destruct (encode_base58h_text b) as (t' & E & S'). unfold check_text. split.
  - intros H. rewrite H in E. injection E as ->. exact S'.
  - intros H. rewrite E. f_equal. exact (base58_of_unique_text _ _ _ S' H).
Qed.
Lemma check_text_total b : exists t, check_text b t.
Proof. destruct (encode_base58h_text b) as (t & _ & H). exists t. exact H. Qed.
Lemma check_text_fun b b' t : check_text b t -> check_text b' t -> b = b'.
Proof. rewrite <- !a2b_iff. congruence. Qed.
Lemma a2b_err t e : a2b_hashed_base58 t = Err e -> e = E_UtilsEncodingError \/ e = E_UnicodeDecodeError.
Proof.
  unfold a2b_hashed_base58. intros H. destruct (Forall_dec in58 in58_dec t) as [F|F].
  - destruct (a2b_base58_ok t F) as (d & E & _). rewrite E in H. cbn [bind] in H. cbv zeta in H. destruct (bytes_eqb _ _); [discriminate|]. injection H as <-. auto.
  - rewrite a2b_base58_fail in H by exact F. cbn [bind] in H. injection H as <-. destruct (all_ascii t); auto.
Qed.

Lemma ifb_gen l v : fold_left (fun v c => Z.shiftl v 8 + bZ c) l v = v * 256 ^ Z.of_nat (length l) + be_val l.
Proof.
  revert v. induction l as [|c l IH]; intros v; cbn [fold_left length]; [change (be_val []) with 0; lia|].
  rewrite IH, be_val_cons. rewrite Z.shiftl_mul_pow2 by lia. change (2 ^ 8) with 256. rewrite Nat2Z.inj_succ, Z.pow_succ_r by lia. ring.
Qed.
Lemma ifb_be l : int_from_bytes l = be_val l.
Proof. unfold int_from_bytes. rewrite ifb_gen. lia. Qed.

(** ** slices *)
Lemma slice_mid (a b c : bytes) i j : length a = i -> length b = (j - i)%nat -> slice i j (a ++ b ++ c) = b.
Proof.
  intros A B. unfold slice. rewrite <- A at 2. rewrite skipn_app, skipn_all, Nat.sub_diag. cbn [skipn app]. rewrite <- B.
  rewrite firstn_app, firstn_all, Nat.sub_diag. apply app_nil_r.
Qed.
Lemma slice_end (a b : bytes) i j : length a = i -> length b = (j - i)%nat -> slice i j (a ++ b) = b.
Proof. intros A B. rewrite <- (app_nil_r b) at 1. apply slice_mid; assumption. Qed.
Lemma slice_length i j (l : bytes) : (i <= j)%nat -> (j <= length l)%nat -> length (slice i j l) = (j - i)%nat.
Proof. intros A B. unfold slice. rewrite firstn_length, skipn_length. lia. Qed.
Lemma skipn_twice (i j : nat) (l : bytes) : skipn j (skipn i l) = skipn (i + j) l.
Proof. revert l. induction i as [|i IH]; intros l; [reflexivity|]. destruct l; [rewrite !skipn_nil; reflexivity|apply IH]. Qed.
Lemma slice_join i j k (l : bytes) : (i <= j <= k)%nat -> slice i j l ++ slice j k l = slice i k l.
Proof.
  intros H. unfold slice. replace (k - i)%nat with ((j - i) + (k - j))%nat by lia.
  replace (skipn j l) with (skipn (j - i) (skipn i l)) by (rewrite skipn_twice; f_equal; lia). generalize (skipn i l) as m. intros m.
  rewrite <- (firstn_skipn (j - i) m) at 3. rewrite firstn_app. rewrite firstn_length. rewrite firstn_firstn, Nat.min_r by lia. f_equal.
  destruct (Nat.le_gt_cases (j - i) (length m)) as [G|G]; [f_equal; lia|]. rewrite (skipn_all2 m) by lia. rewrite !firstn_nil. reflexivity.
Qed.
Lemma slice_all j (l : bytes) : slice 0 j l ++ skipn j l = l.
Proof. unfold slice. cbn [skipn]. rewrite Nat.sub_0_r. apply firstn_skipn. Qed.

(** any string of at least 78 bytes has the BIP 32 layout *)
Definition cut (data : bytes) : Prop :=
  hd_layout (be_val (slice 0 4 data)) (be_val (slice 4 5 data)) (be_val (slice 5 9 data)) (be_val (slice 9 13 data))
    (slice 13 45 data) (slice 45 78 data) (slice 0 78 data).
Lemma cut_ok data : (78 <= length data)%nat -> cut data.
Proof.
  intros L. exists (slice 0 4 data), (slice 4 5 data), (slice 5 9 data), (slice 9 13 data).
  split; [rewrite !slice_join by lia; reflexivity|]. do 6 (split; [apply slice_length; lia|]). auto.
Qed.
Lemma layout_slices version depth parent index chain key b rest : hd_layout version depth parent index chain key b ->
  length b = 78%nat /\ be_val (slice 0 4 (b ++ rest)) = version /\ be_val (slice 4 5 (b ++ rest)) = depth /\ be_val (slice 5 9 (b ++ rest)) = parent /\
  be_val (slice 9 13 (b ++ rest)) = index /\ slice 13 45 (b ++ rest) = chain /\ slice 45 78 (b ++ rest) = key.
Proof.
  intros (v & d & p & i & -> & V & D & P & I & C & K & <- & <- & <- & <-).
  split; [rewrite !app_length; lia|]. rewrite <- !app_assoc.
  split; [f_equal; apply (slice_mid [] v); [reflexivity|exact V]|].
  split; [f_equal; apply (slice_mid v d); [exact V|exact D]|].
  split; [f_equal; rewrite (app_assoc v d); apply slice_mid; [rewrite app_length; lia|exact P]|].
  split; [f_equal; rewrite (app_assoc v d), (app_assoc (v ++ d)); apply slice_mid; [rewrite !app_length; lia|exact I]|].
  split; [rewrite (app_assoc v d), (app_assoc (v ++ d)), (app_assoc ((v ++ d) ++ p)); apply slice_mid; [rewrite !app_length; lia|exact C]|].
  rewrite (app_assoc v d), (app_assoc (v ++ d)), (app_assoc ((v ++ d) ++ p)), (app_assoc (((v ++ d) ++ p) ++ i)). apply slice_mid; [rewrite !app_length; lia|exact K].
Qed.
Lemma layout_length version depth parent index chain key b : hd_layout version depth parent index chain key b -> length b = 78%nat.
Proof. intros H. exact (proj1 (layout_slices _ _ _ _ _ _ _ [] H)). Qed.

(** ** fingerprints *)
Lemma fingerprint_bytes b : exists rest, hash160_u b = firstn 4 (hash160_u b) ++ rest /\ length (firstn 4 (hash160_u b)) = 4%nat.
Proof.
  exists (skipn 4 (hash160_u b)). split; [symmetry; apply firstn_skipn|]. rewrite firstn_length.
  assert (L : length (hash160_u b) = 20%nat) by apply ripemd160_length. rewrite L. reflexivity.
Qed.
Lemma pub_fp x y n cp : 0 <= x < 2 ^ 256 -> (cp = false -> 0 <= y < 2 ^ 256) ->
  exists f, fingerprint_of x y cp f /\ forall chain depth index parent net,
    new_hdpub (PublicKey (x, y) n cp) chain depth index parent net = Ok (HDPub (PublicKey (x, y) n cp) chain depth index parent net f).
Proof.
  intros X Y. destruct (pk_to_bytes_ok x y n cp X Y) as (b & E & SO). exists (be_val (firstn 4 (hash160_u b))). split.
  - destruct (fingerprint_bytes b) as (rest & R & L). exists b, (firstn 4 (hash160_u b)), rest. split; [exact SO|]. split; [exact R|]. auto.
  - intros. unfold new_hdpub, pub_fingerprint. rewrite E. cbn [bind]. rewrite ifb_be. reflexivity.
Qed.
Lemma sec_of_fun x y cp b b' : sec_of x y cp b -> sec_of x y cp b' -> b = b'.
Proof.
  intros A B. destruct A as [xs ys LX LY EX EY|xs L E EV|xs L E OD]; inversion B as [xs' ys' LX' LY' EX' EY'|xs' L' E' EV'|xs' L' E' OD']; subst.
  - f_equal. f_equal; apply be_val_inj; congruence.
  - f_equal. apply be_val_inj; congruence.
  - destruct EV as (m & ->), OD' as (m' & M). lia.
  - destruct OD as (m & ->), EV' as (m' & M). lia.
  - f_equal. apply be_val_inj; congruence.
Qed.
Lemma fingerprint_fun x y cp f f' : fingerprint_of x y cp f -> fingerprint_of x y cp f' -> f = f'.
Proof.
  intros (s & a & r & SO & H & L & ->) (s' & a' & r' & SO' & H' & L' & ->). rewrite (sec_of_fun _ _ _ _ _ SO SO') in H. rewrite H in H'.
  assert (a = a'); [|congruence]. apply (f_equal (firstn 4)) in H'. rewrite <- L in H' at 1. rewrite <- L' in H'. rewrite !firstn_app, !firstn_all, !Nat.sub_diag, !firstn_O, !app_nil_r in H'. exact H'.
Qed.

(** ** parsing *)
Lemma find_hd attr z n : find (VInt z) (txt attr) = Ok n <-> network_number n attr z.
Proof.
  rewrite find_int_iff. split; [|intros H; exists attr; auto].
  intros (a & E & H). assert (a = attr); [|subst; exact H]. clear H. revert a E. induction attr as [|c s IH]; intros [|c' s'] E; try discriminate; [reflexivity|].
  injection E as E1 E2. f_equal; [|apply IH; exact E2]. apply (f_equal Ascii.ascii_of_byte) in E1. rewrite !Ascii.ascii_of_byte_of_ascii in E1. congruence.
Qed.
Lemma be_32_bound l : length l = 32%nat -> 0 <= be_val l < 2 ^ 256.
Proof. intros L. pose proof (be_val_bound l) as B. rewrite L in B. exact B. Qed.
Lemma secp_lt : secp_p < 2 ^ 256. Proof. reflexivity. Qed.
Lemma sec_of_x x y cp b : sec_of x y cp b -> 0 <= x < 2 ^ 256.
Proof. intros H. inversion H; subst; apply be_32_bound; assumption. Qed.
Lemma sec_33 key x y cp : length key = 33%nat -> sec_reads key x y cp -> cp = true /\ sec_of x y true key /\ secp_on x y /\ 0 <= y < secp_p.
Proof.
  intros L (core & rest & -> & SO & ON & R). rewrite app_length in L. destruct SO as [xs ys LX LY EX EY|xs LX EX EV|xs LX EX OD].
  - cbn [length] in L. rewrite app_length in L. lia.
  - cbn [length] in L. destruct rest; [|cbn [length] in L; lia]. rewrite app_nil_r. split; [reflexivity|]. split; [apply sec_even; assumption|]. split; [exact ON|apply R; reflexivity].
  - cbn [length] in L. destruct rest; [|cbn [length] in L; lia]. rewrite app_nil_r. split; [reflexivity|]. split; [apply sec_odd; assumption|]. split; [exact ON|apply R; reflexivity].
Qed.
Lemma sec_reads_length b x y cp : sec_reads b x y cp -> (33 <= length b)%nat.
Proof. intros (core & rest & -> & SO & _). rewrite app_length. inversion SO; cbn [length]; rewrite ?app_length; lia. Qed.
Lemma slice_short i j (l : bytes) : (i <= j)%nat -> length (slice i j l) = (j - i)%nat -> (i < j)%nat -> (j <= length l)%nat.
Proof. unfold slice. rewrite firstn_length, skipn_length. lia. Qed.

Lemma hdpub_from_string_iff s h : hdpub_from_string s = Ok h <->
  exists b rest version depth parent index chain key n x y f,
    check_text (b ++ rest) s /\ hd_layout version depth parent index chain key b /\ network_number n "hd_public_key" version /\
    sec_of x y true key /\ secp_on x y /\ 0 <= y < secp_p /\ fingerprint_of x y true f /\
    h = HDPub (PublicKey (x, y) n true) chain depth index parent n f.
Proof.
  unfold hdpub_from_string. cbv zeta. cbv [off_version off_depth off_parent off_index off_chain off_chain_end off_key_end]. split.
  - intros H. apply bind_ok in H. destruct H as (data & A & H). apply bind_ok in H. destruct H as (n & F & H).
    apply bind_ok in H. destruct H as (pk & K & H). rewrite ifb_be in F. apply find_hd in F.
    apply pk_from_bytes_iff in K. destruct K as (n' & x & y & cp & FN & SR & ->). rewrite find_net in FN. injection FN as <-.
    pose proof (sec_reads_length _ _ _ _ SR) as LK. assert (LD : (78 <= length data)%nat).
    { apply (slice_short 45 78); [lia| |lia]. assert (length (slice 45 78 data) <= 33)%nat; [|lia]. unfold slice. rewrite firstn_length. apply Nat.le_min_l. }
    assert (L33 : length (slice 45 78 data) = 33%nat) by (apply slice_length; lia).
    destruct (sec_33 _ _ _ _ L33 SR) as (-> & SO & ON & Y). pose proof (sec_of_x _ _ _ _ SO) as X.
    destruct (pub_fp x y n true X) as (f & FP & N); [discriminate|]. rewrite N in H. injection H as <-. rewrite !ifb_be.
    exists (slice 0 78 data), (skipn 78 data), (be_val (slice 0 4 data)), (be_val (slice 4 5 data)), (be_val (slice 5 9 data)), (be_val (slice 9 13 data)),
      (slice 13 45 data), (slice 45 78 data), n, x, y, f. rewrite slice_all. split; [apply a2b_iff, A|]. split; [apply cut_ok, LD|]. auto 10.
  - intros (b & rest & version & depth & parent & index & chain & key & n & x & y & f & T & LY & NN & SO & ON & Y & FP & ->).
    apply a2b_iff in T. rewrite T. cbn [bind]. rewrite !ifb_be. destruct (layout_slices _ _ _ _ _ _ _ rest LY) as (_ & -> & -> & -> & -> & -> & ->).
    rewrite (proj2 (find_hd "hd_public_key" version n) NN). cbn [bind].
    rewrite (proj2 (pk_from_bytes_iff key (VNet n) (PublicKey (x, y) n true))).
    2:{ exists n, x, y, true. split; [apply find_net|]. split; [|reflexivity]. exists key, []. rewrite app_nil_r. auto. }
    cbn [bind]. pose proof (sec_of_x _ _ _ _ SO) as X. destruct (pub_fp x y n true X) as (f' & FP' & N); [discriminate|]. rewrite N.
    rewrite (fingerprint_fun _ _ _ _ _ FP FP'). reflexivity.
Qed.
Lemma new_hdpriv_ok k chain depth index parent net : valid_key k ->
  exists x y f, point_of (k_secret k) x y /\ fingerprint_of x y (k_compressed k) f /\
    new_hdpriv k chain depth index parent net = Ok (HDPriv k chain depth index parent net f).
Proof.
  intros V. destruct (public_key_of k V) as (x & y & E & M & ON & X & Y). pose proof secp_lt.
  destruct (pk_to_bytes_ok x y (k_network k) (k_compressed k)) as (b & EB & SO); [lia|intros _; lia|].
  exists x, y, (be_val (firstn 4 (hash160_u b))). split; [exact M|]. split.
  - destruct (fingerprint_bytes b) as (rest & R & L). exists b, (firstn 4 (hash160_u b)), rest. split; [exact SO|]. split; [exact R|]. auto.
  - unfold new_hdpriv, priv_fingerprint, priv_to_public_key. rewrite E. cbn [bind]. rewrite EB. cbn [bind]. rewrite ifb_be. reflexivity.
Qed.
Lemma point_of_fun s x y x' y' : point_of s x y -> point_of s x' y' -> x = x' /\ y = y'.
Proof.
  unfold point_of. rewrite <- (dg_stands secp256k1 secp_gx secp_gy key_max secp_group). intros A B. assert (E : EA x y = EA x' y'); [|split; congruence].
  exact (multiple_fun secp256k1 PRp ODp secp_G s _ _ G_valid A B).
Qed.

Lemma hdpriv_from_string_iff s h : hdpriv_from_string s = Ok h <->
  exists b rest version depth parent index chain pad sk n x y f,
    check_text (b ++ rest) s /\ hd_layout version depth parent index chain (pad :: sk) b /\ network_number n "hd_private_key" version /\
    0 < be_val sk < curve_order /\ point_of (be_val sk) x y /\ fingerprint_of x y true f /\
    h = HDPriv (PrivateKey (be_val sk) n true) chain depth index parent n f.
Proof.
  unfold hdpriv_from_string. cbv zeta. cbv [off_version off_depth off_parent off_index off_chain off_chain_end off_privkey off_key_end]. split.
  - intros H. apply bind_ok in H. destruct H as (data & A & H). apply bind_ok in H. destruct H as (n & F & H).
    apply bind_ok in H. destruct H as (k & K & H). rewrite ifb_be in F. apply find_hd in F.
    apply priv_from_bytes_ok in K. destruct K as (LK & n' & FN & B & ->). rewrite find_net in FN. injection FN as <-.
    assert (LD : (78 <= length data)%nat) by (apply (slice_short 46 78); [lia|exact LK|lia]).
    destruct (new_hdpriv_ok (PrivateKey (be_val (slice 46 78 data)) n true) (slice 13 45 data) (int_from_bytes (slice 4 5 data)) (int_from_bytes (slice 9 13 data)) (int_from_bytes (slice 5 9 data)) n)
      as (x & y & f & PO & FP & N); [split; [exact B|exact (network_number_known _ _ _ F)]|].
    rewrite N in H. injection H as <-. rewrite !ifb_be.
    pose proof (slice_join 45 46 78 data) as J. assert (L1 : length (slice 45 46 data) = 1%nat) by (apply slice_length; lia).
    destruct (slice 45 46 data) as [|pad [|]] eqn:E1; try discriminate L1.
    exists (slice 0 78 data), (skipn 78 data), (be_val (slice 0 4 data)), (be_val (slice 4 5 data)), (be_val (slice 5 9 data)), (be_val (slice 9 13 data)),
      (slice 13 45 data), pad, (slice 46 78 data), n, x, y, f. rewrite slice_all. split; [apply a2b_iff, A|].
    split; [change (pad :: slice 46 78 data) with ([pad] ++ slice 46 78 data); rewrite J by lia; apply cut_ok, LD|]. auto 10.
  - intros (b & rest & version & depth & parent & index & chain & pad & sk & n & x & y & f & T & LY & NN & B & PO & FP & ->).
    apply a2b_iff in T. rewrite T. cbn [bind]. rewrite !ifb_be. destruct (layout_slices _ _ _ _ _ _ _ rest LY) as (LB & -> & -> & -> & -> & -> & SK).
    rewrite (proj2 (find_hd "hd_private_key" version n) NN). cbn [bind].
    assert (LS : length (pad :: sk) = 33%nat) by (rewrite <- SK; apply slice_length; rewrite ?app_length; lia). cbn [length] in LS.
    assert (E : slice 46 78 (b ++ rest) = sk).
    { pose proof (slice_join 45 46 78 (b ++ rest)) as J. rewrite SK in J.
      assert (L1 : length (slice 45 46 (b ++ rest)) = 1%nat) by (apply slice_length; rewrite ?app_length; lia).
      destruct (slice 45 46 (b ++ rest)) as [|q [|]]; try discriminate L1. specialize (J ltac:(lia)). injection J as _ J. exact J. }
    rewrite E. assert (V : valid_key (PrivateKey (be_val sk) n true)) by (split; [exact B|exact (network_number_known _ _ _ NN)]).
    rewrite (proj2 (priv_from_bytes_ok sk (VNet n) true (PrivateKey (be_val sk) n true))).
    2:{ split; [lia|]. exists n. split; [apply find_net|]. auto. }
    cbn [bind]. destruct (new_hdpriv_ok (PrivateKey (be_val sk) n true) chain depth index parent n V) as (x' & y' & f' & PO' & FP' & N).
    rewrite N. destruct (point_of_fun _ _ _ _ _ PO PO') as (<- & <-). rewrite (fingerprint_fun _ _ _ _ _ FP FP'). reflexivity.
Qed.
Lemma hdpub_from_string_err s e : hdpub_from_string s = Err e ->
  e = E_UtilsEncodingError \/ e = E_UnicodeDecodeError \/ e = E_UnknownNetwork \/ e = E_Pub_InvalidBinary \/ e = E_Pub_InvalidPair.
Proof.
  unfold hdpub_from_string. cbv zeta. intros H. destruct (a2b_hashed_base58 s) as [data|e'] eqn:A; cbn [bind] in H.
  2:{ injection H as <-. apply a2b_err in A. intuition. }
  destruct (find _ _) as [n|e'] eqn:F; cbn [bind] in H. 2:{ injection H as <-. apply find_err in F. auto. }
  destruct (pk_from_bytes _ _) as [k|e'] eqn:K; cbn [bind] in H.
  - pose proof K as K'. apply pk_from_bytes_iff in K. destruct K as (n' & x & y & cp & _ & SR & ->).
    assert (X : 0 <= x < 2 ^ 256 /\ (cp = false -> 0 <= y < 2 ^ 256)).
    { destruct SR as (core & rest & _ & SO & _ & _). split; [exact (sec_of_x _ _ _ _ SO)|]. intros ->. inversion SO; subst. apply be_32_bound; assumption. }
    destruct (pub_fp x y n' cp (proj1 X) (proj2 X)) as (f & _ & N). rewrite N in H. discriminate.
  - injection H as <-. pose proof K as K'. apply pk_from_bytes_err in K. destruct K as [->|[->| ->]]; auto 10.
    exfalso. unfold pk_from_bytes, recatch in K'. destruct (sec_to_public_pair _) as [[a b]|e''] eqn:SP; cbn [bind] in K'.
    + apply new_pubkey_err in K'. destruct K' as [(_ & K')|(K' & _)]; [rewrite find_net in K'; discriminate|discriminate].
    + apply sec_pair_err in SP. rewrite SP in K'. discriminate K'.
Qed.
Lemma hdpriv_from_string_err s e : hdpriv_from_string s = Err e ->
  e = E_UtilsEncodingError \/ e = E_UnicodeDecodeError \/ e = E_UnknownNetwork \/ e = E_Priv_InvalidBinaryLength \/ e = E_Priv_InvalidSecret.
Proof.
  unfold hdpriv_from_string. cbv zeta. intros H. destruct (a2b_hashed_base58 s) as [data|e'] eqn:A; cbn [bind] in H.
  2:{ injection H as <-. apply a2b_err in A. intuition. }
  destruct (find _ _) as [n|e'] eqn:F; cbn [bind] in H. 2:{ injection H as <-. apply find_err in F. auto. }
  destruct (priv_from_bytes _ _ _) as [k|e'] eqn:K; cbn [bind] in H.
  - apply priv_from_bytes_ok in K. destruct K as (_ & n' & FN & B & ->). rewrite find_net in FN. injection FN as <-. apply find_hd in F.
    match type of H with new_hdpriv ?a ?b ?c ?d ?e ?f = _ => destruct (new_hdpriv_ok a b c d e f) as (x & y & g & _ & _ & N) end.
    { split; [exact B|exact (network_number_known _ _ _ F)]. }
    rewrite N in H. discriminate.
  - injection H as <-. apply priv_from_bytes_err in K. destruct K as [(-> & _)|[(_ & K)|(-> & _)]]; auto 10. rewrite find_net in K. discriminate.
Qed.
(** an unknown version is reported before the key is looked at *)
Lemma hdpub_unknown_version s b rest version depth parent index chain key : check_text (b ++ rest) s -> hd_layout version depth parent index chain key b ->
  (forall n, ~ network_number n "hd_public_key" version) -> hdpub_from_string s = Err E_UnknownNetwork.
Proof.
  intros T LY NN. apply a2b_iff in T. unfold hdpub_from_string. rewrite T. cbn [bind]. cbv zeta. cbv [off_version off_depth]. rewrite (ifb_be (slice 0 4 _)).
  destruct (layout_slices _ _ _ _ _ _ _ rest LY) as (_ & -> & _). destruct (find (VInt version) (txt "hd_public_key")) as [n|e] eqn:F; [apply find_hd in F; destruct (NN n F)|].
  apply find_err in F. subst. reflexivity.
Qed.
Lemma hdpriv_unknown_version s b rest version depth parent index chain key : check_text (b ++ rest) s -> hd_layout version depth parent index chain key b ->
  (forall n, ~ network_number n "hd_private_key" version) -> hdpriv_from_string s = Err E_UnknownNetwork.
Proof.
  intros T LY NN. apply a2b_iff in T. unfold hdpriv_from_string. rewrite T. cbn [bind]. cbv zeta. cbv [off_version off_depth]. rewrite (ifb_be (slice 0 4 _)).
  destruct (layout_slices _ _ _ _ _ _ _ rest LY) as (_ & -> & _). destruct (find (VInt version) (txt "hd_private_key")) as [n|e] eqn:F; [apply find_hd in F; destruct (NN n F)|].
  apply find_err in F. subst. reflexivity.
Qed.
(** short payloads are refused *)
Lemma hd_short s data : check_text data s -> (length data < 78)%nat -> (exists e, hdpub_from_string s = Err e) /\ (exists e, hdpriv_from_string s = Err e).
Proof.
  intros T L. split.
  - destruct (hdpub_from_string s) as [h|e] eqn:E; [|eauto]. exfalso. apply hdpub_from_string_iff in E.
    destruct E as (b & rest & v & d & p & i & ch & k & n & x & y & f & T' & LY & _). rewrite (check_text_fun _ _ _ T T'), app_length, (layout_length _ _ _ _ _ _ _ LY) in L. lia.
  - destruct (hdpriv_from_string s) as [h|e] eqn:E; [|eauto]. exfalso. apply hdpriv_from_string_iff in E.
    destruct E as (b & rest & v & d & p & i & ch & pd & k & n & x & y & f & T' & LY & _). rewrite (check_text_fun _ _ _ T T'), app_length, (layout_length _ _ _ _ _ _ _ LY) in L. lia.
Qed.

(** ** writing *)
Lemma hdpub_to_string_fails h : known (hp_network h) -> hdpub_to_string h = Err E_UnicodeDecodeError.
Proof. unfold hdpub_to_string. intros [-> | ->]; reflexivity. Qed.
Lemma hdpriv_to_string_fails h : known (hv_network h) -> hdpriv_to_string h = Err E_UnicodeDecodeError.
Proof. unfold hdpriv_to_string. intros [-> | ->]; reflexivity. Qed.
Lemma hdpriv_derive_never h i hd : exists e, hdpriv_derive h i hd = Err e.
Proof. unfold hdpriv_derive. match goal with |- exists e, bind ?m _ = _ => destruct m as [a|e] end; cbn [bind]; eauto. Qed.
Lemma hdpriv_derive_normal h i : valid_key (hv_privkey h) -> hdpriv_derive h i false = Err E_AttributeError.
Proof.
  intros V. unfold hdpriv_derive, priv_to_public_key. destruct (public_key_of _ V) as (x & y & E & _ & _ & X & Y). rewrite E. cbn [bind]. pose proof secp_lt.
  destruct (pk_to_bytes_ok x y (k_network (hv_privkey h)) (k_compressed (hv_privkey h))) as (b & EB & _); [lia|intros _; lia|]. rewrite EB. reflexivity.
Qed.
Lemma all_ascii_app a b : all_ascii (a ++ b) = all_ascii a && all_ascii b.
Proof. apply forallb_app. Qed.
Lemma hdpriv_derive_hardened h i : hdpriv_derive h i true =
  Err (if all_ascii (priv_to_bytes (hv_privkey h) ++ be_bytes 4 (hv_index h)) then E_AttributeError else E_UnicodeDecodeError).
Proof.
  unfold hdpriv_derive, add_unicode, ib_to_bytes. rewrite all_ascii_app. destruct (all_ascii (priv_to_bytes _)); cbn [bind andb]; [|reflexivity].
  destruct (all_ascii _); reflexivity.
Qed.

(** ** public derivation *)
Lemma hdpub_hardened h i : hdpub_derive h i true = Err E_ValueError.
Proof. reflexivity. Qed.
Lemma hmac_split key msg : hmac_halves key msg (be_val (firstn 32 (hmac_sha512 key msg))) (skipn 32 (hmac_sha512 key msg)).
Proof.
  exists (firstn 32 (hmac_sha512 key msg)). split; [symmetry; apply firstn_skipn|]. split; [|reflexivity].
  rewrite firstn_length, hmac_sha512_length. reflexivity.
Qed.
Lemma hmac_halves_fun key msg l r l' r' : hmac_halves key msg l r -> hmac_halves key msg l' r' -> l = l' /\ r = r'.
Proof.
  intros (a & E & L & ->) (a' & E' & L' & ->). rewrite E in E'. clear E. assert (LL : length a = length a') by lia. clear L L'.
  revert a' LL E'. induction a as [|x a IH]; intros [|x' a'] LL E'; try discriminate LL; [auto|]. injection E' as -> E'. injection LL as LL.
  destruct (IH a' LL E') as (K & ->). split; [|reflexivity]. rewrite !be_val_cons, LL. congruence.
Qed.
Lemma ser32_be i : ser32 i (be_bytes 4 i).
Proof. split; [apply be_bytes_length|]. rewrite be_val_be_bytes. reflexivity. Qed.
Lemma ser32_fun i s s' : ser32 i s -> ser32 i s' -> s = s'.
Proof. intros (L & E) (L' & E'). apply be_val_inj; congruence. Qed.

Definition hd_point (h : hdpub) : Prop := on_curve secp_p 0 7 (EA (fst (pk_pair (hp_pubkey h))) (snd (pk_pair (hp_pubkey h)))).

Lemma hdpub_derive_spec h i x y : pk_pair (hp_pubkey h) = (x, y) -> on_curve secp_p 0 7 (EA x y) ->
  exists child chain', ckd_pub x y (pk_compressed (hp_pubkey h)) (hp_chain h) (hp_index h) child chain' /\
    match child with
    | EO => hdpub_derive h i false = Err E_TypeError
    | EA x' y' => on_curve secp_p 0 7 child /\ exists f, fingerprint_of x' y' true f /\
        hdpub_derive h i false = Ok (HDPub (PublicKey (x', y') (hp_network h) true) chain' (hp_depth h + 1) i (hp_fingerprint h) (hp_network h) f)
    end.
Proof.
  intros PE (X & Y & ON). destruct h as [[pr n cp] chain depth index parent net fp]. cbn [pk_pair hp_pubkey] in PE. subst pr. cbn [hp_pubkey hp_chain hp_index hp_network hp_depth hp_fingerprint pk_compressed].
  pose proof secp_lt as LT. destruct (pk_to_bytes_ok x y n cp) as (sec & EB & SO); [lia|intros _; lia|].
  unfold hdpub_derive. rewrite andb_false_r. cbn [hp_pubkey hp_chain hp_index hp_network hp_depth hp_fingerprint pk_pair]. rewrite EB. cbn [bind]. cbv zeta. unfold ib_to_bytes. rewrite ifb_be.
  pose proof (hmac_split chain (sec ++ be_bytes 4 index)) as HM. set (left := be_val _) in *. set (right := skipn 32 _) in *. clearbody left right.
  destruct (secp_mul left) as (A & EA' & VA & RA & MA & _). rewrite EA'. cbn [bind].
  assert (VQ : valid secp256k1 (PAff x y (Some key_max))). { split; [exact X|]. rewrite secp_cube. change (x * x * x + 0 * x + 7) with (x * x * x + 0 * x + 7) in ON. rewrite Z.mul_0_l, Z.add_0_r in ON. exact ON. }
  assert (RQ : reduced secp256k1 (PAff x y (Some key_max))) by (split; assumption).
  rewrite new_point_any. destruct (Z.eqb_spec ((y * y) mod c_p secp256k1) ((x * x * x + c_a secp256k1 * x + c_b secp256k1) mod c_p secp256k1)) as [_|N]; [|destruct (N ON)]. cbn [bind].
  destruct (add_spec secp256k1 PRp ODp A (PAff x y (Some key_max)) VA VQ) as (R & ER & VR & SR & _). rewrite ER. cbn [bind].
  pose proof (add_reduced secp256k1 PRp ODp _ _ _ VA VQ RA RQ ER) as RR.
  assert (SX : stands secp_p (PAff x y (Some key_max)) = EA x y) by (cbn [stands]; rewrite !Z.mod_small by assumption; reflexivity).
  change (c_p secp256k1) with secp_p in SR. rewrite SX in SR. change (c_a secp256k1) with 0 in SR. change key_max with curve_order in MA.
  exists (stands secp_p R), right. split.
  { exists sec, (be_bytes 4 index), left, (stands secp_p A). split; [exact SO|]. split; [apply ser32_be|]. split; [exact HM|]. split; [exact MA|exact SR]. }
  destruct R as [|rx ry ro]; [reflexivity|]. destruct RR as (RX & RY). destruct VR as (_ & VR). rewrite secp_cube in VR. change (c_p secp256k1) with secp_p in RX, RY, VR.
  cbn [stands]. rewrite !Z.mod_small by assumption. split; [split; [exact RX|]; split; [exact RY|]; rewrite Z.mul_0_l, Z.add_0_r; exact VR|].
  destruct (pub_fp rx ry net true) as (f & FP & NH); [lia|discriminate|]. exists f. split; [exact FP|].
  rewrite (proj2 (new_pubkey_iff rx ry (VNet net) true (PublicKey (rx, ry) net true))); [cbn [bind]; apply NH|].
  exists net. split; [apply find_net|]. split; [exact VR|reflexivity].
Qed.

Lemma ckd_pub_chain x y cp chain i child chain' child2 chain2 : ckd_pub x y cp chain i child chain' -> ckd_pub x y cp chain i child2 chain2 -> chain' = chain2.
Proof.
  intros (s & is & l & A & SO & SI & H & _) (s' & is' & l' & A' & SO' & SI' & H' & _).
  rewrite (sec_of_fun _ _ _ _ _ SO SO') in H. rewrite (ser32_fun _ _ _ SI SI') in H. exact (proj2 (hmac_halves_fun _ _ _ _ _ _ H H')).
Qed.
Lemma hdpub_derive_same h i j a b : hdpub_derive h i false = Ok a -> hdpub_derive h j false = Ok b ->
  hp_pubkey a = hp_pubkey b /\ hp_chain a = hp_chain b /\ hp_fingerprint a = hp_fingerprint b /\ hp_index a = i /\ hp_index b = j.
Proof.
  unfold hdpub_derive. rewrite !andb_false_r. cbv zeta. intros A B.
  destruct (pk_to_bytes (hp_pubkey h)) as [sec|]; [|discriminate]. cbn [bind] in A, B. destruct (pk_pair (hp_pubkey h)) as [x y].
  destruct (p_mul _ _ _) as [P|]; [|discriminate]. cbn [bind] in A, B. destruct (new_point _ _ _ _) as [Q|]; [|discriminate]. cbn [bind] in A, B.
  destruct (p_add _ _ _) as [[|rx ry ro]|]; try discriminate. cbn [bind] in A, B. destruct (new_pubkey _ _ _) as [k|]; [|discriminate]. cbn [bind] in A, B.
  unfold new_hdpub in A, B. destruct (pub_fingerprint k) as [f|]; [|discriminate]. cbn [bind] in A, B.
  set (right := skipn 32 _) in *. clearbody right. injection A as <-. injection B as <-. cbn [hp_pubkey hp_chain hp_fingerprint hp_index]. auto.
Qed.
Lemma hdpub_derive_any h i j : (exists a, hdpub_derive h i false = Ok a) -> exists b, hdpub_derive h j false = Ok b.
Proof.
  unfold hdpub_derive. rewrite !andb_false_r. cbv zeta. intros (a & A).
  destruct (pk_to_bytes (hp_pubkey h)) as [sec|]; [|discriminate]. cbn [bind] in *. destruct (pk_pair (hp_pubkey h)) as [x y].
  destruct (p_mul _ _ _) as [P|]; [|discriminate]. cbn [bind] in *. destruct (new_point _ _ _ _) as [Q|]; [|discriminate]. cbn [bind] in *.
  destruct (p_add _ _ _) as [[|rx ry ro]|]; try discriminate. cbn [bind] in *. destruct (new_pubkey _ _ _) as [k|]; [|discriminate]. cbn [bind] in *.
  unfold new_hdpub in *. destruct (pub_fingerprint k) as [f|]; [|discriminate]. cbn [bind] in *. eexists. reflexivity.
Qed.
Lemma hdpub_derive_fields h i a : hdpub_derive h i false = Ok a ->
  hp_index a = i /\ hp_depth a = hp_depth h + 1 /\ hp_parent a = hp_fingerprint h /\ hp_network a = hp_network h /\
  pk_network (hp_pubkey a) = hp_network h /\ pk_compressed (hp_pubkey a) = true.
Proof.
  unfold hdpub_derive. rewrite !andb_false_r. cbv zeta. intros A.
  destruct (pk_to_bytes (hp_pubkey h)) as [sec|]; [|discriminate]. cbn [bind] in A. destruct (pk_pair (hp_pubkey h)) as [x y].
  destruct (p_mul _ _ _) as [P|]; [|discriminate]. cbn [bind] in A. destruct (new_point _ _ _ _) as [Q|]; [|discriminate]. cbn [bind] in A.
  destruct (p_add _ _ _) as [[|rx ry ro]|]; try discriminate. cbn [bind] in A. destruct (new_pubkey _ _ _) as [k|] eqn:K; [|discriminate]. cbn [bind] in A.
  unfold new_hdpub in A. destruct (pub_fingerprint k) as [f|]; [|discriminate]. cbn [bind] in A.
  set (right := skipn 32 _) in *. clearbody right. injection A as <-. apply new_pubkey_iff in K. destruct K as (n & F & _ & ->). rewrite find_net in F. injection F as <-.
  cbn [hp_pubkey hp_chain hp_fingerprint hp_index hp_depth hp_parent hp_network pk_network pk_compressed]. auto 10.
Qed.

(** the witness: G, an all-zero chain code, index 0 *)
Definition hd_G : hdpub := HDPub (PublicKey (secp_gx, secp_gy) livenet true) (zeros 32) 0 0 0 livenet 0.
Definition hd_msg (i : Z) : bytes := (x02 :: be_bytes 32 secp_gx) ++ be_bytes 4 i.
Lemma G_on : on_curve secp_p 0 7 (EA secp_gx secp_gy).
Proof. exact (proj1 (proj2 (proj2 (proj2 (proj2 (proj2 secp_group)))))). Qed.
Lemma sec_G_c : sec_of secp_gx secp_gy true (x02 :: be_bytes 32 secp_gx).
Proof. apply sec_even; [apply be_bytes_length|vm_compute; reflexivity|exists (secp_gy / 2); vm_compute; reflexivity]. Qed.
Lemma hd_left : (be_val (firstn 32 (hmac_sha512 (zeros 32) (hd_msg 0))) mod curve_order + 1) mod curve_order <> 0.
Proof. vm_compute. discriminate. Qed.
Lemma hd_G_derives i : exists a, hdpub_derive hd_G i false = Ok a /\ hp_chain a = skipn 32 (hmac_sha512 (zeros 32) (hd_msg 0)).
Proof.
  destruct (hdpub_derive_spec hd_G i secp_gx secp_gy eq_refl G_on) as (child & chain' & CK & M).
  destruct CK as (sec & is & left & A & SO & SI & HM & MU & SU). rewrite (sec_of_fun _ _ _ _ _ SO sec_G_c) in HM. rewrite (ser32_fun _ _ _ SI (ser32_be 0)) in HM.
  destruct (hmac_halves_fun _ _ _ _ _ _ HM (hmac_split _ _)) as (-> & ->). fold (hd_msg 0) in *. change (hp_chain hd_G) with (zeros 32) in *.
  destruct child as [|x y].
  - exfalso. apply hd_left. apply (dg_order_spec secp256k1 secp_gx secp_gy key_max secp_group _ EO); [|reflexivity].
    apply (mult_S secp_p 0 (EA secp_gx secp_gy) _ A EO); [apply Z.mod_pos_bound; reflexivity|exact MU|exact SU].
  - destruct M as (_ & f & _ & E). eexists. split; [exact E|reflexivity].
Qed.
Lemma hd_chains_differ : skipn 32 (hmac_sha512 (zeros 32) (hd_msg 0)) <> skipn 32 (hmac_sha512 (zeros 32) (hd_msg 1)).
Proof. vm_compute. discriminate. Qed.
Lemma hd_not_bip32 : ~ (forall h i x y a, on_curve secp_p 0 7 (EA x y) -> pk_pair (hp_pubkey h) = (x, y) -> 0 <= i < 2 ^ 31 ->
  hdpub_derive h i false = Ok a -> exists child, ckd_pub x y (pk_compressed (hp_pubkey h)) (hp_chain h) i child (hp_chain a)).
Proof.
  intros H. destruct (hd_G_derives 1) as (a & E & C). destruct (H hd_G 1 secp_gx secp_gy a G_on eq_refl ltac:(lia) E) as (child & CK).
  destruct CK as (sec & is & left & A & SO & SI & HM & _). rewrite (sec_of_fun _ _ _ _ _ SO sec_G_c) in HM. rewrite (ser32_fun _ _ _ SI (ser32_be 1)) in HM.
  pose proof (proj2 (hmac_halves_fun _ _ _ _ _ _ HM (hmac_split _ _))) as K. rewrite C in K. exact (hd_chains_differ K).
Qed.
Lemma hd_not_distinct : ~ (forall h i j a b, i <> j -> hdpub_derive h i false = Ok a -> hdpub_derive h j false = Ok b -> hp_pubkey a <> hp_pubkey b).
Proof.
  intros H. destruct (hd_G_derives 1) as (a & A & _). destruct (hd_G_derives 2) as (b & B & _).
  apply (H hd_G 1 2 a b ltac:(lia) A B). exact (proj1 (hdpub_derive_same _ _ _ _ _ A B)).
Qed.

(** ** seeds and neutering *)
Definition seed_tail (left right : bytes) : res hdpriv :=
  let! k := priv_from_bytes left (VNet livenet) true in new_hdpriv k right 0 0 root_fingerprint livenet.
Lemma from_seed_eq seed : hdpriv_from_seed seed = if blen seed <? 32 then Err E_ValueError else
  seed_tail (firstn 32 (hmac_sha512 (txt "Bitcoin seed") seed)) (skipn 32 (hmac_sha512 (txt "Bitcoin seed") seed)).
Proof. unfold hdpriv_from_seed, seed_tail, min_seed_len, hmac_magic_key. cbv zeta. reflexivity. Qed.
Lemma seed_tail_iff left right h : length left = 32%nat -> (seed_tail left right = Ok h <->
  0 < be_val left < curve_order /\ exists x y f, point_of (be_val left) x y /\ fingerprint_of x y true f /\ h = HDPriv (PrivateKey (be_val left) livenet true) right 0 0 0 livenet f).
Proof.
  intros L. unfold seed_tail. split.
  - intros H. apply bind_ok in H. destruct H as (k & K & H). apply priv_from_bytes_ok in K. destruct K as (_ & n & F & B & ->). rewrite find_net in F. injection F as <-.
    destruct (new_hdpriv_ok (PrivateKey (be_val left) livenet true) right 0 0 root_fingerprint livenet) as (x & y & f & PO & FP & N); [split; [exact B|left; reflexivity]|].
    rewrite N in H. injection H as <-. split; [exact B|]. exists x, y, f. auto.
  - intros (B & x & y & f & PO & FP & ->).
    rewrite (proj2 (priv_from_bytes_ok left (VNet livenet) true (PrivateKey (be_val left) livenet true))).
    2:{ split; [exact L|]. exists livenet. split; [apply find_net|]. auto. }
    cbn [bind]. destruct (new_hdpriv_ok (PrivateKey (be_val left) livenet true) right 0 0 root_fingerprint livenet) as (x' & y' & f' & PO' & FP' & N); [split; [exact B|left; reflexivity]|].
    rewrite N. destruct (point_of_fun _ _ _ _ _ PO PO') as (<- & <-). rewrite (fingerprint_fun _ _ _ _ _ FP FP'). reflexivity.
Qed.
Lemma seed_tail_err left right e : length left = 32%nat -> (seed_tail left right = Err e <-> e = E_Priv_InvalidSecret /\ ~ 0 < be_val left < curve_order).
Proof.
  intros L. unfold seed_tail. destruct (priv_from_bytes left (VNet livenet) true) as [k|e'] eqn:K; cbn [bind].
  - apply priv_from_bytes_ok in K. destruct K as (_ & n & F & B & ->). rewrite find_net in F. injection F as <-.
    destruct (new_hdpriv_ok (PrivateKey (be_val left) livenet true) right 0 0 root_fingerprint livenet) as (x & y & f & PO & FP & N); [split; [exact B|left; reflexivity]|].
    rewrite N. split; [discriminate|]. intros (_ & K). contradiction.
  - apply priv_from_bytes_err in K. destruct K as [(_ & K)|[(_ & K)|(-> & _ & K)]]; [contradiction|rewrite find_net in K; discriminate|].
    split; [intros H; injection H as <-; auto|intros (-> & _); reflexivity].
Qed.
Lemma left_length key m : length (firstn 32 (hmac_sha512 key m)) = 32%nat.
Proof. rewrite firstn_length, hmac_sha512_length. reflexivity. Qed.
Lemma master_iff seed secret chain : master seed secret chain <->
  secret = be_val (firstn 32 (hmac_sha512 (txt "Bitcoin seed") seed)) /\ chain = skipn 32 (hmac_sha512 (txt "Bitcoin seed") seed) /\ 0 < secret < curve_order.
Proof.
  unfold master. split.
  - intros (H & B). destruct (hmac_halves_fun _ _ _ _ _ _ H (hmac_split _ _)) as (E & E'). auto.
  - intros (-> & -> & B). split; [apply hmac_split|exact B].
Qed.
Lemma from_seed_iff seed h : hdpriv_from_seed seed = Ok h <->
  32 <= blen seed /\ exists secret chain x y f, master seed secret chain /\ point_of secret x y /\ fingerprint_of x y true f /\
    h = HDPriv (PrivateKey secret livenet true) chain 0 0 0 livenet f.
Proof.
  rewrite from_seed_eq. pose proof (left_length (txt "Bitcoin seed") seed) as L. pose proof (master_iff seed) as M. remember (hmac_sha512 (txt "Bitcoin seed") seed) as hm eqn:EH. clear EH.
  destruct (Z.ltb_spec (blen seed) 32) as [LT|GE]; [split; [discriminate|intros (K & _); lia]|]. rewrite seed_tail_iff by exact L. split.
  - intros (B & x & y & f & H). split; [exact GE|]. exists (be_val (firstn 32 hm)), (skipn 32 hm), x, y, f. split; [apply M; auto|exact H].
  - intros (_ & s & c & x & y & f & H0 & H). apply M in H0. destruct H0 as (-> & -> & B). split; [exact B|]. exists x, y, f. exact H.
Qed.
Lemma from_seed_err seed e : hdpriv_from_seed seed = Err e <->
  (e = E_ValueError /\ blen seed < 32) \/ (e = E_Priv_InvalidSecret /\ 32 <= blen seed /\ forall secret chain, ~ master seed secret chain).
Proof.
  rewrite from_seed_eq. pose proof (left_length (txt "Bitcoin seed") seed) as L. pose proof (master_iff seed) as M. remember (hmac_sha512 (txt "Bitcoin seed") seed) as hm eqn:EH. clear EH.
  destruct (Z.ltb_spec (blen seed) 32) as [LT|GE].
  - split; [intros H; injection H as <-; auto|]. intros [(-> & _)|(_ & K & _)]; [reflexivity|lia].
  - rewrite seed_tail_err by exact L. split.
    + intros (-> & K). right. split; [reflexivity|]. split; [exact GE|]. intros s c H. apply M in H. destruct H as (-> & _ & B). contradiction.
    + intros [(_ & K)|(-> & _ & K)]; [lia|]. split; [reflexivity|]. intros B. apply (K (be_val (firstn 32 hm)) (skipn 32 hm)). apply M. auto.
Qed.
Lemma short_seed_refused : ~ (forall seed, 16 <= blen seed <= 64 -> (exists secret chain, master seed secret chain) -> exists h, hdpriv_from_seed seed = Ok h).
Proof.
  intros H. set (seed := map Zb [0;1;2;3;4;5;6;7;8;9;10;11;12;13;14;15]). destruct (H seed) as (h & E).
  - split; vm_compute; congruence.
  - exists (be_val (firstn 32 (hmac_sha512 (txt "Bitcoin seed") seed))), (skipn 32 (hmac_sha512 (txt "Bitcoin seed") seed)). split; [apply hmac_split|].
    split; vm_compute; reflexivity.
  - apply from_seed_iff in E. destruct E as (L & _). vm_compute in L. congruence.
Qed.
Lemma to_hdpub_ok h : valid_key (hv_privkey h) -> exists x y f, point_of (k_secret (hv_privkey h)) x y /\
  fingerprint_of x y (k_compressed (hv_privkey h)) f /\
  hdpub_from_hdpriv h = Ok (HDPub (PublicKey (x, y) (k_network (hv_privkey h)) (k_compressed (hv_privkey h))) (hv_chain h) (hv_depth h) (hv_index h) (hv_parent h) (hv_network h) f).
Proof.
  intros V. destruct (public_key_of _ V) as (x & y & E & M & _ & X & Y). pose proof secp_lt.
  destruct (pub_fp x y (k_network (hv_privkey h)) (k_compressed (hv_privkey h))) as (f & FP & N); [lia|intros _; lia|].
  exists x, y, f. split; [exact M|]. split; [exact FP|]. unfold hdpub_from_hdpriv, priv_to_public_key. rewrite E. cbn [bind]. apply N.
Qed.
Lemma to_hdpub_fingerprint k chain depth index parent net h p : valid_key k -> new_hdpriv k chain depth index parent net = Ok h -> hdpub_from_hdpriv h = Ok p ->
  hp_fingerprint p = hv_fingerprint h.
Proof.
  intros V H P. destruct (new_hdpriv_ok k chain depth index parent net V) as (x & y & f & PO & FP & N). rewrite N in H. injection H as <-.
  destruct (to_hdpub_ok (HDPriv k chain depth index parent net f) V) as (x' & y' & f' & PO' & FP' & N'). cbn [hv_privkey hv_fingerprint] in *. rewrite N' in P. injection P as <-. cbn [hp_fingerprint].
  destruct (point_of_fun _ _ _ _ _ PO PO') as (<- & <-). exact (fingerprint_fun _ _ _ _ _ FP' FP).
Qed.

(** ** what BIP 32 forbids and the parser accepts *)
Definition hd_raw (pad : byte) (rest : bytes) : bytes := be_bytes 4 76066276 ++ [x00] ++ zeros 4 ++ zeros 4 ++ zeros 32 ++ (pad :: be_bytes 32 1) ++ rest.
Lemma point_of_1 : point_of 1 secp_gx secp_gy.
Proof. apply (mult_S secp_p 0 (EA secp_gx secp_gy) 0 EO); [lia|constructor|constructor]. Qed.
Lemma hd_raw_layout pad : hd_layout 76066276 0 0 0 (zeros 32) (pad :: be_bytes 32 1) (hd_raw pad []).
Proof. exists (be_bytes 4 76066276), [x00], (zeros 4), (zeros 4). split; [unfold hd_raw; rewrite app_nil_r; reflexivity|]. repeat (split; [vm_compute; reflexivity|]). vm_compute. reflexivity. Qed.
Lemma hd_raw_app pad rest : hd_raw pad rest = hd_raw pad [] ++ rest.
Proof. unfold hd_raw. rewrite !app_nil_r, <- !app_assoc. reflexivity. Qed.
Lemma hd_raw_accepted pad rest t : check_text (hd_raw pad rest) t -> exists f, fingerprint_of secp_gx secp_gy true f /\
  hdpriv_from_string t = Ok (HDPriv (PrivateKey 1 livenet true) (zeros 32) 0 0 0 livenet f).
Proof.
  intros T. destruct (pub_fp secp_gx secp_gy livenet true) as (f & FP & _); [split; vm_compute; congruence|discriminate|]. exists f. split; [exact FP|].
  apply hdpriv_from_string_iff. assert (V1 : be_val (be_bytes 32 1) = 1) by reflexivity.
  exists (hd_raw pad []), rest, 76066276, 0, 0, 0, (zeros 32), pad, (be_bytes 32 1), livenet, secp_gx, secp_gy, f. rewrite <- hd_raw_app, V1.
  split; [exact T|]. split; [apply hd_raw_layout|]. split; [constructor|]. split; [split; vm_compute; reflexivity|]. split; [exact point_of_1|]. auto.
Qed.
Lemma hd_pad_unchecked : ~ (forall t h b rest version depth parent index chain pad sk, hdpriv_from_string t = Ok h -> check_text (b ++ rest) t ->
  hd_layout version depth parent index chain (pad :: sk) b -> pad = x00).
Proof.
  intros H. destruct (check_text_total (hd_raw x01 [])) as (t & T). destruct (hd_raw_accepted _ _ _ T) as (f & _ & E).
  rewrite hd_raw_app in T. specialize (H t _ _ _ _ _ _ _ _ _ _ E T (hd_raw_layout x01)). discriminate.
Qed.
Lemma hd_length_unchecked : ~ (forall t h data, hdpriv_from_string t = Ok h -> check_text data t -> length data = 78%nat).
Proof.
  intros H. destruct (check_text_total (hd_raw x00 [x00])) as (t & T). destruct (hd_raw_accepted _ _ _ T) as (f & _ & E). specialize (H t _ _ E T). vm_compute in H. discriminate.
Qed.
Lemma hd_not_injective : exists t t' h, t <> t' /\ hdpriv_from_string t = Ok h /\ hdpriv_from_string t' = Ok h.
Proof.
  destruct (check_text_total (hd_raw x00 [])) as (t & T). destruct (check_text_total (hd_raw x01 [])) as (t' & T').
  destruct (hd_raw_accepted _ _ _ T) as (f & FP & E). destruct (hd_raw_accepted _ _ _ T') as (f' & FP' & E'). rewrite (fingerprint_fun _ _ _ _ _ FP' FP) in E'.
  exists t, t'. eexists. split; [|split; [exact E|exact E']]. intros <-. pose proof (check_text_fun _ _ _ T T') as K. vm_compute in K. discriminate.
Qed.
Lemma hd_text_refuted : ~ (forall h, known (hp_network h) -> exists t, hdpub_to_string h = Ok t /\ hdpub_from_string t = Ok h).
Proof. intros H. destruct (H hd_G (or_introl eq_refl)) as (t & E & _). rewrite hdpub_to_string_fails in E by (left; reflexivity). discriminate. Qed.
Lemma hd_derive_refuted : ~ (forall h i, valid_key (hv_privkey h) -> exists c, hdpriv_derive h i false = Ok c).
Proof.
  intros H. set (h := HDPriv (PrivateKey 1 livenet true) (zeros 32) 0 0 0 livenet 0).
  assert (V : valid_key (hv_privkey h)) by (split; [split; vm_compute; reflexivity|left; reflexivity]).
  destruct (H h 0 V) as (c & E). rewrite hdpriv_derive_normal in E by exact V. discriminate.
Qed.
Lemma zero_seed : master (zeros 32) (be_val (firstn 32 (hmac_sha512 (txt "Bitcoin seed") (zeros 32)))) (skipn 32 (hmac_sha512 (txt "Bitcoin seed") (zeros 32))).
Proof. split; [apply hmac_split|]. split; vm_compute; reflexivity. Qed.
