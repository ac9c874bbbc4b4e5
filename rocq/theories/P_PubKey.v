(** Public keys: codec and derivation. *)
From Coq Require Import ZArith Znumtheory Lia Bool List String.
From Verif Require Import Base M_Hash M_Codec M_Keys M_EC S_Codec S_Keys S_EC P_Codec P_Keys P_Field P_NumTheory P_Group P_EC P_ECProps P_ECDSA P_SecpPrime P_SecpOrder.
Import ListNotations.
Open Scope Z_scope.

Lemma secp_cube x : (x * x * x + c_a secp256k1 * x + c_b secp256k1) = x * x * x + 7.
Proof. cbn [c_a c_b secp256k1]. ring. Qed.
Lemma contains_spec x y : contains_point secp256k1 x y = true <-> secp_on x y.
Proof. rewrite contains_of. rewrite <- on_of. rewrite secp_cube. reflexivity. Qed.
Lemma contains_b x y : contains_point secp256k1 x y = ((y * y) mod secp_p =? (x * x * x + 7) mod secp_p).
Proof. apply eq_true_iff_eq. rewrite contains_spec, Z.eqb_eq. reflexivity. Qed.

Lemma new_pubkey_iff x y v cp k : new_pubkey (x, y) v cp = Ok k <->
  exists n, find v (txt "name") = Ok n /\ secp_on x y /\ k = PublicKey (x, y) n cp.
Proof.
  unfold new_pubkey, recatch. cbn [fst snd]. destruct (find v (txt "name")) as [n|e] eqn:F; cbn [bind].
  - destruct (contains_point secp256k1 x y) eqn:C; cbn [negb].
    + apply contains_spec in C. split; [intros H; injection H as <-; eauto|]. intros (m & H & _ & ->). injection H as <-. reflexivity.
    + split; [discriminate|]. intros (m & _ & H & _). apply contains_spec in H. congruence.
  - apply find_err in F as E. subst e. cbn. split; [discriminate|]. intros (m & H & _). discriminate.
Qed.
Lemma new_pubkey_err x y v cp e : new_pubkey (x, y) v cp = Err e <->
  (e = E_Pub_UnknownNetwork /\ find v (txt "name") = Err E_UnknownNetwork) \/
  (e = E_Pub_InvalidPair /\ ~ secp_on x y /\ exists n, find v (txt "name") = Ok n).
Proof.
  unfold new_pubkey, recatch. cbn [fst snd]. destruct (find v (txt "name")) as [n|e'] eqn:F; cbn [bind].
  - destruct (contains_point secp256k1 x y) eqn:C; cbn [negb].
    + apply contains_spec in C. split; [discriminate|]. intros [(_ & H)|(_ & H & _)]; [discriminate|contradiction].
    + assert (~ secp_on x y) by (intros H; apply contains_spec in H; congruence). split; [intros H1; injection H1 as <-; eauto 6|].
      intros [(_ & H1)|(-> & _)]; [discriminate|reflexivity].
  - apply find_err in F as E. subst e'. cbn. split; [intros H; injection H as <-; auto|]. intros [(-> & _)|(_ & _ & n & H)]; [reflexivity|discriminate].
Qed.

(** ** public_pair_for_x *)
Lemma secp_mod3 : secp_p mod 4 = 3. Proof. reflexivity. Qed.
Lemma secp_p_pos : 0 < secp_p. Proof. reflexivity. Qed.
Lemma land1 z : Z.land z 1 = z mod 2.
Proof. change 1 with (Z.ones 1). apply Z.land_ones. lia. Qed.
Lemma secp_odd : Z.Odd secp_p. Proof. apply Z.odd_spec. reflexivity. Qed.

(** the ordinate chosen for [x] *)
Lemma alpha_eq x : (powmod x 3 secp_p + 0 * x + 7) mod secp_p = (x * x * x + 7) mod secp_p.
Proof.
  rewrite Z.mul_0_l, Z.add_0_r. rewrite powmod_eq by (reflexivity || lia). rewrite Zplus_mod_idemp_l. f_equal. ring.
Qed.
Lemma parity_facts y : (Z.Even y <-> y mod 2 = 0) /\ (Z.Odd y <-> y mod 2 = 1).
Proof.
  split; split.
  - intros (m & ->). rewrite Z.mul_comm. apply Z_mod_mult.
  - intros H. exists (y / 2). pose proof (Z.div_mod y 2 ltac:(lia)). lia.
  - intros (m & ->). rewrite Z.add_comm, Z.mul_comm. rewrite Z_mod_plus_full. reflexivity.
  - intros H. exists (y / 2). pose proof (Z.div_mod y 2 ltac:(lia)). lia.
Qed.
(** the choice between the two roots, for any odd modulus *)
Lemma choose_root P r cc ev : Z.Odd P -> 0 <= r < P -> cc mod P <> 0 -> (r <> 0 <-> is_square P cc) -> (r <> 0 -> (r * r) mod P = cc mod P) ->
  let y := if Bool.eqb ev (negb (Z.land r 1 =? 0)) then P - r else r in
  ((y * y) mod P = cc mod P <-> is_square P cc) /\ (is_square P cc -> 0 < y < P /\ (if ev then Z.Even y else Z.Odd y)).
Proof.
  intros PO B N0 I S y.
  assert (NEG : ((P - r) * (P - r)) mod P = (r * r) mod P).
  { replace ((P - r) * (P - r)) with (r * r + (P - 2 * r) * P) by ring. apply Z_mod_plus_full. }
  assert (Y : (y * y) mod P = (r * r) mod P) by (unfold y; destruct (Bool.eqb _ _); [exact NEG|reflexivity]).
  rewrite Y. split.
  - split; [|intros Q; apply S, I, Q]. intros E. apply I. intros ->. apply N0. rewrite <- E. apply Zmod_0_l.
  - intros Q. apply I in Q. unfold y. rewrite land1. pose proof (Z.mod_pos_bound r 2 ltac:(lia)) as M.
    destruct PO as (h & ->). destruct (parity_facts r) as (EV & OD). destruct (Z.eqb_spec (r mod 2) 0) as [Z|Z].
    + apply EV in Z as Z'. destruct Z' as (m & Z'). cbn [negb]. destruct ev; cbn [Bool.eqb].
      * split; [lia|]. exists m. exact Z'.
      * split; [lia|]. exists (h - m). lia.
    + assert (Z1 : r mod 2 = 1) by lia. apply OD in Z1. destruct Z1 as (m & Z1). cbn [negb]. destruct ev; cbn [Bool.eqb].
      * split; [lia|]. exists (h - m). lia.
      * split; [lia|]. exists m. exact Z1.
Qed.
Lemma is_square_mod P z : is_square P (z mod P) <-> is_square P z.
Proof. unfold is_square. setoid_rewrite Zmod_mod. reflexivity. Qed.
Lemma pair_for_x x ev : exists y, public_pair_for_x secp256k1 x ev = Ok (x, y) /\
  (secp_on x y <-> is_square secp_p (x * x * x + 7)) /\
  (is_square secp_p (x * x * x + 7) -> 0 < y < secp_p /\ (if ev then Z.Even y else Z.Odd y)).
Proof.
  unfold public_pair_for_x. cbn [c_p c_a c_b secp256k1]. cbn zeta. rewrite alpha_eq.
  destruct (sqrt_complete secp_p ((x * x * x + 7) mod secp_p) secp_p_prime ODp) as (r & E & B & I & S). rewrite E. cbn [bind].
  rewrite Zmod_mod in I, S. rewrite is_square_mod in I.
  assert (N0 : (x * x * x + 7) mod secp_p <> 0) by (rewrite <- secp_cube; exact (secp_no_two x)).
  destruct (choose_root secp_p r (x * x * x + 7) ev secp_odd B N0) as (A1 & A2); [tauto|exact S|].
  eexists. split; [|split; [exact A1|exact A2]]. destruct (Bool.eqb _ _); reflexivity.
Qed.
(** the ordinate is determined by its parity *)
Lemma root_unique P y y' c : prime P -> 0 <= y < P -> 0 <= y' < P -> (y * y) mod P = c mod P -> (y' * y') mod P = c mod P ->
  (Z.Even y <-> Z.Even y') -> c mod P <> 0 -> y = y'.
Proof.
  intros PR Y Y' E E' PA N. assert (D : (P | (y - y') * (y + y'))).
  { apply Zmod_divide; [lia|]. replace ((y - y') * (y + y')) with (y * y - y' * y') by ring.
    rewrite Zminus_mod, E, E', Z.sub_diag. apply Zmod_0_l. }
  apply prime_mult in D; [|exact PR]. destruct D as [(k & D)|(k & D)].
  { clear - D Y Y'. assert (k = 0) by nia. subst. lia. }
  assert (K : k = 0 \/ k = 1) by (clear - D Y Y'; nia). destruct K as [->| ->].
  - assert (y = 0) by lia. lia.
  - destruct (Z.eq_dec P 2) as [->|N2]; [assert (y' = y \/ y = 0 \/ y' = 0) as [H|[H|H]] by lia; [lia|subst; exfalso; apply N; rewrite <- E; reflexivity|subst; exfalso; apply N; rewrite <- E'; reflexivity]|].
    exfalso. assert (O : Z.Odd P). { destruct (p_odd PR N2) as (h & H & _). exists h. exact H. }
    destruct O as (h & O). destruct (Z.Even_or_Odd y) as [V|V].
    + pose proof (proj1 PA V) as (m & M). destruct V as (m' & M'). lia.
    + destruct (Z.Even_or_Odd y') as [W|W].
      * apply PA in W. destruct V as (m & M), W as (m' & M'). lia.
      * destruct V as (m & M), W as (m' & M'). lia.
Qed.

(** ** sec_to_public_pair *)
Lemma firstn_skipn_32 (b : bytes) k : blen (firstn 32 (skipn k b)) = 32 -> exists pre core rest, b = pre ++ core ++ rest /\ length pre = k /\ length core = 32%nat /\ firstn 32 (skipn k b) = core.
Proof.
  unfold blen. intros L. exists (firstn k b), (firstn 32 (skipn k b)), (skipn 32 (skipn k b)).
  rewrite firstn_skipn, firstn_skipn. split; [reflexivity|]. split; [|split; [lia|reflexivity]].
  rewrite firstn_length in L. rewrite skipn_length in L. apply firstn_length_le. lia.
Qed.
Lemma secp_on_square x y : secp_on x y -> is_square secp_p (x * x * x + 7).
Proof. intros H. exists y. exact H. Qed.

Lemma first_byte (t : byte) l : firstn 1 (t :: l) = [t].
Proof. reflexivity. Qed.
Lemma sub_x t xs (r : bytes) : length xs = 32%nat -> firstn 32 (skipn 1 (t :: xs ++ r)) = xs.
Proof. intros L. rewrite skipn_cons, skipn_O. rewrite <- L. rewrite firstn_app, firstn_all, Nat.sub_diag. apply app_nil_r. Qed.
Lemma skip_33 t xs (r : bytes) : length xs = 32%nat -> skipn 33 (t :: xs ++ r) = r.
Proof. intros L. rewrite skipn_cons. rewrite <- L at 1. rewrite skipn_app, skipn_all, Nat.sub_diag. reflexivity. Qed.
Lemma sub_y t xs ys (r : bytes) : length xs = 32%nat -> length ys = 32%nat -> firstn 32 (skipn 33 (t :: xs ++ ys ++ r)) = ys.
Proof. intros L M. rewrite skip_33 by exact L. rewrite <- M. rewrite firstn_app, firstn_all, Nat.sub_diag. apply app_nil_r. Qed.
Lemma blen_32 (l : bytes) : length l = 32%nat -> (blen l =? 32) = true.
Proof. unfold blen. intros ->. reflexivity. Qed.

Lemma sec_parse b x y : sec_to_public_pair (Str b) = Ok (x, y) /\ secp_on x y <-> sec_reads b x y (is_sec_compressed (Str b)).
Proof.
  unfold sec_to_public_pair, pyb_sub. cbn [pyb_map pyb_bytes]. rewrite !from_bytes_32_str. unfold is_sec_compressed. cbn [pyb_bytes].
  split.
  - intros (H & ON). destruct (Z.eqb_spec (blen (firstn 32 (skipn 1 b))) 32) as [L|]; [|discriminate]. cbn [bind] in H.
    apply firstn_skipn_32 in L. destruct L as (pre & xs & rest & -> & LP & LX & EX). rewrite EX in H.
    destruct pre as [|t [|? ?]]; try discriminate LP. cbn [app] in H |- *. rewrite first_byte in H |- *.
    destruct (bytes_eqb [t] [x04]) eqn:T4.
    + apply bytes_eqb_eq in T4. injection T4 as ->. replace (bytes_eqb [x04] [x02] || bytes_eqb [x04] [x03]) with false by reflexivity.
      destruct (_ =? 32) eqn:L in H; [apply Z.eqb_eq in L|discriminate]. cbn [bind] in H.
      rewrite skip_33 in H, L by exact LX.
      destruct (contains_point _ _ _) eqn:C in H; [|discriminate]. injection H as <- <-.
      exists (x04 :: xs ++ firstn 32 rest), (skipn 32 rest). split; [cbn [app]; rewrite <- app_assoc, firstn_skipn; reflexivity|].
      split; [constructor; auto; unfold blen in L; lia|]. split; [exact ON|discriminate].
    + destruct (bytes_eqb [t] [x02] || bytes_eqb [t] [x03]) eqn:T23; [|discriminate].
      destruct (pair_for_x (be_val xs) (bytes_eqb [t] [x02])) as (y' & E & I1 & I2). rewrite E in H. injection H as <- <-.
      specialize (I2 (proj1 I1 ON)). destruct I2 as (YB & YP).
      exists (t :: xs), rest. split; [reflexivity|]. split; [|split; [exact ON|intros _; lia]].
      destruct (bytes_eqb [t] [x02]) eqn:T2.
      * apply bytes_eqb_eq in T2. injection T2 as ->. constructor; auto.
      * cbn [orb] in T23. apply bytes_eqb_eq in T23. injection T23 as ->. constructor; auto.
  - intros (core & rest & -> & SO & ON & YB). 
    inversion SO as [xs ys LX LY EX EY CC|xs LX EX EV CC|xs LX EX OV CC]; subst core; cbn [app] in CC |- *.
    + rewrite <- app_assoc. rewrite sub_x, first_byte, blen_32 by exact LX. cbn [bind].
      replace (bytes_eqb [x04] [x04]) with true by reflexivity. rewrite sub_y, blen_32 by assumption. cbn [bind]. rewrite EX, EY. rewrite (proj2 (contains_spec x y) ON). split; [reflexivity|exact ON].
    + rewrite sub_x, first_byte, blen_32 by exact LX. cbn [bind].
      replace (bytes_eqb [x02] [x04]) with false by reflexivity. replace (bytes_eqb [x02] [x02]) with true by reflexivity. cbn [orb].
      rewrite EX. destruct (pair_for_x x true) as (y' & E & I1 & I2). rewrite E. split; [|exact ON]. f_equal. f_equal.
      pose proof (secp_on_square x y ON) as SQ. destruct (I2 SQ) as (B & P2).
      apply (root_unique secp_p y' y (x * x * x + 7) secp_p_prime); [lia|apply YB; reflexivity|apply I1, SQ|exact ON|tauto|].
      rewrite <- secp_cube. exact (secp_no_two x).
    + rewrite sub_x, first_byte, blen_32 by exact LX. cbn [bind].
      replace (bytes_eqb [x03] [x04]) with false by reflexivity. replace (bytes_eqb [x03] [x02]) with false by reflexivity.
      replace (bytes_eqb [x03] [x03]) with true by reflexivity. cbn [orb].
      rewrite EX. destruct (pair_for_x x false) as (y' & E & I1 & I2). rewrite E. split; [|exact ON]. f_equal. f_equal.
      pose proof (secp_on_square x y ON) as SQ. destruct (I2 SQ) as (B & P2).
      apply (root_unique secp_p y' y (x * x * x + 7) secp_p_prime); [lia|apply YB; reflexivity|apply I1, SQ|exact ON| |].
      * rewrite <- !Z.even_spec. rewrite <- !Z.negb_odd. rewrite (proj2 (Z.odd_spec y') P2), (proj2 (Z.odd_spec y) OV). reflexivity.
      * rewrite <- secp_cube. exact (secp_no_two x).
Qed.

Lemma sec_reads_flag b x y cp : sec_reads b x y cp -> is_sec_compressed (Str b) = cp.
Proof. intros (core & rest & -> & SO & _). inversion SO; subst; reflexivity. Qed.
Lemma sec_pair_err b e : sec_to_public_pair b = Err e -> is_sec_error e = true.
Proof.
  unfold sec_to_public_pair. intros H.
  assert (L : forall q e', from_bytes_32 q = Err e' -> is_sec_error e' = true).
  { intros [l|l] e' E.
    - rewrite from_bytes_32_str in E. destruct (_ =? _); [discriminate|]. injection E as <-. reflexivity.
    - destruct (from_bytes_32_ba l) as (e2 & E2 & [->|[->| ->]]); rewrite E2 in E; injection E as <-; reflexivity. }
  destruct (from_bytes_32 (pyb_sub 1 32 b)) as [x|e1] eqn:X; cbn [bind] in H; [|injection H as <-; eapply L; exact X].
  destruct (bytes_eqb _ [x04]).
  - destruct (from_bytes_32 (pyb_sub 33 32 b)) as [y|e1] eqn:Y; cbn [bind] in H; [|injection H as <-; eapply L; exact Y].
    destruct (contains_point _ _ _); [discriminate|]. injection H as <-. reflexivity.
  - destruct (_ || _); [|injection H as <-; reflexivity]. destruct (pair_for_x x (bytes_eqb (firstn 1 (pyb_bytes b)) [x02])) as (y & E & _). rewrite E in H. discriminate.
Qed.
Lemma pk_from_bytes_iff b v k : pk_from_bytes (Str b) v = Ok k <->
  exists n x y cp, find v (txt "name") = Ok n /\ sec_reads b x y cp /\ k = PublicKey (x, y) n cp.
Proof.
  unfold pk_from_bytes, recatch. split.
  - destruct (sec_to_public_pair (Str b)) as [(x & y)|e] eqn:S; cbn [bind]; [|rewrite (sec_pair_err _ _ S); discriminate].
    intros H. apply new_pubkey_iff in H. destruct H as (n & F & ON & ->). exists n, x, y, (is_sec_compressed (Str b)).
    split; [exact F|]. split; [apply sec_parse; auto|reflexivity].
  - intros (n & x & y & cp & F & SR & ->). pose proof (sec_reads_flag _ _ _ _ SR) as C. subst cp. apply sec_parse in SR. destruct SR as (-> & ON). cbn [bind].
    apply new_pubkey_iff. exists n. auto.
Qed.
Lemma pk_from_bytes_err b v e : pk_from_bytes b v = Err e -> e = E_Pub_InvalidBinary \/ e = E_Pub_InvalidPair \/ e = E_Pub_UnknownNetwork.
Proof.
  unfold pk_from_bytes, recatch. destruct (sec_to_public_pair b) as [(x & y)|e'] eqn:S; cbn [bind].
  - intros H. apply new_pubkey_err in H. destruct H as [(-> & _)|(-> & _)]; auto.
  - rewrite (sec_pair_err _ _ S). intros H. injection H as <-. auto.
Qed.
Lemma pk_from_bytes_ba l v : pk_from_bytes (BA l) v = Err E_Pub_InvalidBinary.
Proof.
  unfold pk_from_bytes, sec_to_public_pair, pyb_sub. cbn [pyb_map].
  destruct (from_bytes_32_ba (firstn 32 (skipn 1 l))) as (e & -> & [->|[->| ->]]); reflexivity.
Qed.
Lemma pk_on_curve b v k : pk_from_bytes b v = Ok k -> secp_on (fst (pk_pair k)) (snd (pk_pair k)).
Proof.
  destruct b as [b|b]; [|rewrite pk_from_bytes_ba; discriminate]. intros H. apply pk_from_bytes_iff in H.
  destruct H as (n & x & y & cp & _ & (core & rest & _ & _ & ON & _) & ->). exact ON.
Qed.
(** the x coordinate with no point *)
Lemma pk_non_residue t xs rest v n : length xs = 32%nat -> t = x02 \/ t = x03 -> ~ is_square secp_p (be_val xs * be_val xs * be_val xs + 7) ->
  find v (txt "name") = Ok n -> pk_from_bytes (Str (t :: xs ++ rest)) v = Err E_Pub_InvalidPair.
Proof.
  intros L T NS F. unfold pk_from_bytes, sec_to_public_pair, pyb_sub. cbn [pyb_map pyb_bytes].
  rewrite from_bytes_32_str, sub_x, first_byte, blen_32 by exact L. cbn [bind].
  replace (bytes_eqb [t] [x04]) with false by (destruct T as [->| ->]; reflexivity).
  replace (bytes_eqb [t] [x02] || bytes_eqb [t] [x03]) with true by (destruct T as [->| ->]; reflexivity).
  destruct (pair_for_x (be_val xs) (bytes_eqb [t] [x02])) as (y & E & I & _). rewrite E. cbn [recatch bind].
  apply new_pubkey_err. right. split; [reflexivity|]. split; [tauto|eauto].
Qed.

(** ** to_bytes and the round trips *)
Lemma pk_to_bytes_ok x y n cp : 0 <= x < 2 ^ 256 -> (cp = false -> 0 <= y < 2 ^ 256) ->
  exists b, pk_to_bytes (PublicKey (x, y) n cp) = Ok b /\ sec_of x y cp b.
Proof.
  intros X Y. unfold pk_to_bytes, public_pair_to_sec. cbn [pk_pair pk_compressed fst snd]. rewrite (to_bytes_32_ok x X). cbn [bind].
  assert (BV : forall z, 0 <= z < 2 ^ 256 -> be_val (be_bytes 32 z) = z).
  { intros z Zb0. rewrite be_val_be_bytes. change (256 ^ Z.of_nat 32) with (2 ^ 256). apply Z.mod_small, Zb0. }
  destruct cp.
  - eexists. split; [reflexivity|]. rewrite land1. destruct (parity_facts y) as (EV & OV). pose proof (Z.mod_pos_bound y 2 ltac:(lia)).
    destruct (Z.eq_dec (y mod 2) 0) as [E|E].
    + rewrite E. change (Zb (2 + 0)) with x02. apply sec_even; [apply be_bytes_length|apply BV, X|apply EV, E].
    + assert (E1 : y mod 2 = 1) by lia. rewrite E1. change (Zb (2 + 1)) with x03. apply sec_odd; [apply be_bytes_length|apply BV, X|apply OV, E1].
  - specialize (Y eq_refl). rewrite (to_bytes_32_ok y Y). cbn [bind]. eexists. split; [reflexivity|].
    apply sec_uncompressed; (apply be_bytes_length || apply BV; assumption).
Qed.
Lemma pk_roundtrip x y n (cp : bool) : secp_on x y -> 0 <= x < 2 ^ 256 -> (if cp then 0 <= y < secp_p else 0 <= y < 2 ^ 256) ->
  exists b, pk_to_bytes (PublicKey (x, y) n cp) = Ok b /\ sec_of x y cp b /\ pk_from_bytes (Str b) (VNet n) = Ok (PublicKey (x, y) n cp).
Proof.
  intros ON X Y. destruct (pk_to_bytes_ok x y n cp X) as (b & E & SO); [intros ->; exact Y|]. exists b. split; [exact E|]. split; [exact SO|].
  apply pk_from_bytes_iff. exists n, x, y, cp. split; [apply find_net|]. split; [|reflexivity].
  exists b, []. split; [symmetry; apply app_nil_r|]. split; [exact SO|]. split; [exact ON|]. intros ->. exact Y.
Qed.
Lemma pk_hex_roundtrip x y n (cp : bool) : secp_on x y -> 0 <= x < 2 ^ 256 -> (if cp then 0 <= y < secp_p else 0 <= y < 2 ^ 256) ->
  exists h, pk_to_hex (PublicKey (x, y) n cp) = Ok h /\ pk_from_hex h (VNet n) = Ok (PublicKey (x, y) n cp).
Proof.
  intros ON X Y. destruct (pk_roundtrip x y n cp ON X Y) as (b & E & _ & R). unfold pk_to_hex. rewrite E. cbn [bind].
  eexists. split; [reflexivity|]. unfold pk_from_hex. rewrite decode_encode_hex. cbn [recatch bind]. exact R.
Qed.
Lemma pk_from_hex_iff s v k : pk_from_hex s v = Ok k <-> exists b, decode_hex s = Ok b /\ pk_from_bytes (Str b) v = Ok k.
Proof.
  unfold pk_from_hex, recatch. destruct (decode_hex s) as [b|e]; cbn [bind].
  - split; [eauto|]. intros (b' & E & H). injection E as <-. exact H.
  - split; [destruct (is_invalid_hex e); discriminate|]. intros (b & E & _). discriminate.
Qed.
Lemma pk_from_hex_err s v e : pk_from_hex s v = Err e ->
  e = E_Pub_InvalidHex \/ e = E_Pub_InvalidBinary \/ e = E_Pub_InvalidPair \/ e = E_Pub_UnknownNetwork.
Proof.
  unfold pk_from_hex, recatch. destruct (decode_hex s) as [b|e'] eqn:D; cbn [bind].
  - intros H. apply pk_from_bytes_err in H. auto.
  - apply decode_hex_err in D. subst e'. cbn. intros H. injection H as <-. auto.
Qed.

(** ** the public key of a private key *)
Lemma secp_G_reduced : reduced secp256k1 secp_G.
Proof. split; split; (vm_compute; congruence). Qed.
Lemma order_gt2 : 2 < key_max. Proof. reflexivity. Qed.
Lemma order_is : key_max = curve_order. Proof. reflexivity. Qed.
Lemma secp_mul e : exists R, p_mul secp256k1 secp_G e = Ok R /\ valid secp256k1 R /\ reduced secp256k1 R /\
  multiple secp_p 0 (EA secp_gx secp_gy) (e mod key_max) (stands secp_p R) /\ (R = PInf <-> e mod key_max = 0).
Proof.
  destruct (mul_G_spec secp256k1 PRp ODp secp_no_two secp_gx secp_gy key_max key_max_prime G_valid order_G e) as (R & A & B & C & D).
  exists R. split; [exact A|]. split; [exact B|]. split; [|split; [exact C|exact D]].
  exact (mul_G_reduced secp256k1 PRp ODp secp_no_two secp_gx secp_gy key_max key_max_prime G_valid order_G e R order_gt2 secp_G_reduced A).
Qed.
Lemma valid_secp_on x y o : valid secp256k1 (PAff x y o) -> secp_on x y.
Proof. intros (_ & H). rewrite secp_cube in H. exact H. Qed.
Lemma public_key_of k : valid_key k -> exists x y,
  pk_from_private_key k = Ok (PublicKey (x, y) (k_network k) (k_compressed k)) /\
  multiple secp_p 0 (EA secp_gx secp_gy) (k_secret k) (EA x y) /\ secp_on x y /\ 0 <= x < secp_p /\ 0 <= y < secp_p.
Proof.
  intros (B & _). rewrite <- order_is in B. unfold pk_from_private_key, public_pair_for_secret.
  destruct (secp_mul (k_secret k)) as (R & -> & V & RD & M & I). cbn [bind].
  rewrite Z.mod_small in M, I by (destruct B as (B1 & B2); split; [apply Z.lt_le_incl, B1|exact B2]).
  destruct R as [|x y o]; [exfalso; destruct B as (B1 & _); rewrite (proj1 I eq_refl) in B1; discriminate B1|].
  exists x, y. pose proof (valid_secp_on _ _ _ V) as ON. destruct RD as (RX & RY).
  split; [|split; [|split; [exact ON|split; [exact RX|exact RY]]]].
  - apply new_pubkey_iff. exists (k_network k). split; [apply find_net|]. split; [exact ON|reflexivity].
  - cbn [stands] in M. rewrite !Z.mod_small in M by assumption. exact M.
Qed.
Lemma public_key_inj k k' p p' : valid_key k -> valid_key k' -> pk_from_private_key k = Ok p -> pk_from_private_key k' = Ok p' ->
  pk_pair p = pk_pair p' -> k_secret k = k_secret k'.
Proof.
  intros (B & _) (B' & _) E E' EP. rewrite <- order_is in B, B'. unfold pk_from_private_key, public_pair_for_secret in E, E'.
  destruct (secp_mul (k_secret k)) as (R & A & _). destruct (secp_mul (k_secret k')) as (R' & A' & _).
  rewrite A in E. rewrite A' in E'. cbn [bind] in E, E'. destruct R as [|x y o]; [discriminate|]. destruct R' as [|x' y' o']; [discriminate|].
  apply new_pubkey_iff in E, E'. destruct E as (n & _ & _ & ->). destruct E' as (n' & _ & _ & ->). cbn [pk_pair] in EP. injection EP as <- <-.
  pose proof (mul_G_inj secp256k1 PRp ODp secp_no_two secp_gx secp_gy key_max key_max_prime G_valid order_G _ _ _ _ A A' eq_refl) as H.
  rewrite !Z.mod_small in H; [exact H|destruct B'; split; [apply Z.lt_le_incl; assumption|assumption]|destruct B; split; [apply Z.lt_le_incl; assumption|assumption]].
Qed.

(** ** what strict SEC parsing would refuse *)
Definition sec_G : bytes := x04 :: be_bytes 32 secp_gx ++ be_bytes 32 secp_gy.
Lemma sec_G_of : sec_of secp_gx secp_gy false sec_G.
Proof. constructor; vm_compute; reflexivity. Qed.
Lemma accepts_trailing b v k rest : pk_from_bytes (Str b) v = Ok k -> pk_from_bytes (Str (b ++ rest)) v = Ok k.
Proof.
  rewrite !pk_from_bytes_iff. intros (n & x & y & cp & F & (core & r0 & -> & O & C & R) & ->). exists n, x, y, cp. split; [exact F|]. split; [|reflexivity].
  exists core, (r0 ++ rest). split; [symmetry; apply app_assoc|]. auto.
Qed.
Lemma length_not_checked : ~ (forall b v k, pk_from_bytes (Str b) v = Ok k -> length b = 33%nat \/ length b = 65%nat).
Proof.
  intros H. specialize (H (sec_G ++ [x00]) (VNet livenet) (PublicKey (secp_gx, secp_gy) livenet false)). destruct H as [H|H].
  - apply accepts_trailing, pk_from_bytes_iff. exists livenet, secp_gx, secp_gy, false. split; [reflexivity|]. split; [|reflexivity].
    exists sec_G, []. split; [symmetry; apply app_nil_r|]. split; [exact sec_G_of|]. split; [vm_compute; reflexivity|discriminate].
  - vm_compute in H. discriminate.
  - vm_compute in H. discriminate.
Qed.
(** x = p + 1, y a root of 8 *)
Definition root8 : Z := 0x4218f20ae6c646b363db68605822fb14264ca8d2587fdd6fbc750d587e76a7ee.
Definition sec_big : bytes := x04 :: be_bytes 32 (secp_p + 1) ++ be_bytes 32 root8.
Lemma range_not_checked : ~ (forall b v k, pk_from_bytes (Str b) v = Ok k -> fst (pk_pair k) < secp_p).
Proof.
  intros H. specialize (H sec_big (VNet livenet) (PublicKey (secp_p + 1, root8) livenet false)).
  assert (K : pk_from_bytes (Str sec_big) (VNet livenet) = Ok (PublicKey (secp_p + 1, root8) livenet false)).
  { apply pk_from_bytes_iff. exists livenet, (secp_p + 1), root8, false. split; [reflexivity|]. split; [|reflexivity].
    exists sec_big, []. split; [symmetry; apply app_nil_r|]. split; [constructor; vm_compute; reflexivity|]. split; [vm_compute; reflexivity|discriminate]. }
  specialize (H K). revert H. cbn [pk_pair fst]. clear. intros H. assert (~ secp_p + 1 < secp_p) as N by (vm_compute; discriminate). exact (N H).
Qed.
(** two keys that are different objects for the same point *)
Lemma two_keys_one_point : exists b b' k k', pk_from_bytes (Str b) (VNet livenet) = Ok k /\ pk_from_bytes (Str b') (VNet livenet) = Ok k' /\
  k <> k' /\ fst (pk_pair k) mod secp_p = fst (pk_pair k') mod secp_p /\ snd (pk_pair k) mod secp_p = snd (pk_pair k') mod secp_p /\ pk_compressed k = pk_compressed k'.
Proof.
  exists sec_big, (x04 :: be_bytes 32 1 ++ be_bytes 32 root8), (PublicKey (secp_p + 1, root8) livenet false), (PublicKey (1, root8) livenet false).
  split; [|split; [|split; [intros K; apply (f_equal (fun k => fst (pk_pair k))) in K; vm_compute in K; discriminate|split; [vm_compute; reflexivity|split; reflexivity]]]];
    apply pk_from_bytes_iff; eexists livenet, _, root8, false; (split; [reflexivity|]); (split; [|reflexivity]);
    eexists _, []; (split; [symmetry; apply app_nil_r|]); (split; [constructor; vm_compute; reflexivity|]); (split; [vm_compute; reflexivity|discriminate]).
Qed.
