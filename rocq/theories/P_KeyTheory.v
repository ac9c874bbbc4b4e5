(** Arithmetic of the library's keys (lemmas). *)
From Coq Require Import ZArith Znumtheory Lia Bool List.
From Verif Require Import Base M_Hash S_Codec M_Keys S_Keys M_EC S_EC M_HD S_HD M_Sign S_Sign S_KeyArith P_Codec P_Keys P_PubKey P_NumTheory P_ECProps P_SecpPrime P_ECDSA P_DSA P_HD P_Sign P_Cofactor P_KeyArith.
Import ListNotations.
Open Scope Z_scope.

Notation SG := secp_group.
Notation pps := (public_pair_for_secret secp256k1 secp_G).

Lemma pps_pp d x y : 0 < d < curve_order -> pps d = Ok (Some (x, y)) -> public_point d x y.
Proof. intros B E. destruct (pp_exists d B) as (x' & y' & PP). destruct (pp_pair _ _ _ PP) as (E' & _). assert (x' = x /\ y' = y) as (<- & <-) by (split; congruence). exact PP. Qed.
Lemma pub_iff d net cp K : pk_from_private_key (PrivateKey d net cp) = Ok K <-> exists x y, pps d = Ok (Some (x, y)) /\ K = PublicKey (x, y) net cp.
Proof.
  unfold pk_from_private_key. cbn [k_secret k_network k_compressed]. destruct (pps_xy secp256k1 secp_gx secp_gy key_max SG d) as (R & E & RR & CR & PP).
  change (public_pair_for_secret secp256k1 (PAff secp_gx secp_gy (Some key_max)) d) with (pps d) in PP. rewrite PP. cbn [bind].
  destruct R as [|x y o]; cbn [xy].
  - split; [discriminate|]. intros (x & y & H & _). discriminate H.
  - cbn [xy] in PP. destruct (pair_emb secp256k1 secp_gx secp_gy key_max SG d x y PP) as (VP & _ & _). apply valid_secp_on in VP. rewrite new_pubkey_iff. split.
    + intros (m & F & _ & ->). rewrite find_net in F. assert (m = net) as -> by congruence. eauto.
    + intros (x' & y' & H & ->). assert (x' = x /\ y' = y) as (-> & ->) by (split; congruence). exists net. rewrite find_net. auto.
Qed.
Lemma pub_of k K : pk_from_private_key k = Ok K -> pps (k_secret k) = Ok (Some (pk_pair K)) /\ pk_network K = k_network k /\ pk_compressed K = k_compressed k.
Proof. destruct k as [d net cp]. intros E. apply pub_iff in E. destruct E as (x & y & E & ->). cbn. auto. Qed.
Definition pt (K : pubkey) : point := PAff (fst (pk_pair K)) (snd (pk_pair K)) None.
Lemma pps_mod e : pps (e mod curve_order) = pps e.
Proof.
  unfold public_pair_for_secret, secp_G, p_mul. cbv zeta. destruct (Z.eqb_spec key_max 0) as [K|_]; [discriminate K|]. change curve_order with key_max. rewrite Zmod_mod. reflexivity.
Qed.

Lemma keys_sum k k' K K' net cp : valid_key k -> valid_key k' -> pk_from_private_key k = Ok K -> pk_from_private_key k' = Ok K' ->
  exists S, p_add secp256k1 (pt K) (pt K') = Ok S /\
    (k_secret k + k_secret k' = curve_order -> S = PInf) /\
    (k_secret k + k_secret k' <> curve_order -> exists x y o, S = PAff x y o /\
       pk_from_private_key (PrivateKey ((k_secret k + k_secret k') mod curve_order) net cp) = Ok (PublicKey (x, y) net cp)).
Proof.
  intros (B & _) (B' & _) E E'. apply pub_of in E, E'. destruct E as (E & _), E' as (E' & _). unfold pt. destruct (pk_pair K) as (x, y), (pk_pair K') as (x', y'). cbn [fst snd].
  destruct (pairs_sum secp256k1 secp_gx secp_gy key_max SG _ _ _ _ _ _ E E') as (S & ES & PS). exists S. split; [exact ES|].
  pose proof (pps_none secp256k1 secp_gx secp_gy key_max SG (k_secret k + k_secret k')) as PN. change (PAff secp_gx secp_gy (Some key_max)) with secp_G in PN, PS. rewrite PS in PN.
  change key_max with curve_order in PN. split.
  - intros H. rewrite H in PN. destruct S as [|x1 y1 o1]; [reflexivity|]. cbn [xy] in PN. destruct PN as (_ & PN). discriminate (PN (Z_mod_same_full _)).
  - intros H. destruct S as [|x1 y1 o1].
    + exfalso. destruct PN as (PN & _). specialize (PN eq_refl). cut (exists t, k_secret k + k_secret k' = t * curve_order).
      * intros (t & T). clear -B B' H T. revert B B' H T. generalize curve_order (k_secret k) (k_secret k'). intros n a b B B' H T. assert (t = 1) by nia. nia.
      * apply Z.mod_divide in PN; [|discriminate]. destruct PN as (t & T). exists t. exact T.
    + exists x1, y1, o1. split; [reflexivity|]. apply pub_iff. exists x1, y1. split; [|reflexivity]. rewrite pps_mod. exact PS.
Qed.

Lemma mirror_key k : valid_key k -> valid_key (PrivateKey (curve_order - k_secret k) (k_network k) (k_compressed k)).
Proof. intros (B & N). split; [cbn [k_secret]; clear -B; revert B; generalize curve_order; intros; lia|exact N]. Qed.
Lemma parity_flip y : 0 < y < secp_p -> (Z.Even y <-> Z.Odd (secp_p - y)).
Proof.
  intros B. assert (O : Z.odd secp_p = true) by reflexivity. rewrite <- Z.even_spec, <- Z.odd_spec, Z.odd_sub, O. unfold xorb. rewrite <- Z.negb_odd. destruct (Z.odd y); cbn; split; congruence.
Qed.
Lemma keys_mirror k K : valid_key k -> pk_from_private_key k = Ok K ->
  pk_from_private_key (PrivateKey (curve_order - k_secret k) (k_network k) (k_compressed k)) =
    Ok (PublicKey (fst (pk_pair K), secp_p - snd (pk_pair K)) (k_network k) (k_compressed k)).
Proof.
  intros _ E. apply pub_of in E. destruct E as (E & _). apply pub_iff. destruct (pk_pair K) as (x, y). cbn [fst snd]. exists x, (secp_p - y). split; [|reflexivity].
  exact (proj2 (pairs_neg secp256k1 secp_gx secp_gy key_max SG _ x y E)).
Qed.
Lemma sec_bytes k K : valid_key k -> pk_from_private_key k = Ok K -> exists x y b, pk_pair K = (x, y) /\ secp_on x y /\ 0 <= x < secp_p /\ 0 <= y < secp_p /\
  pk_to_bytes K = Ok b /\ sec_of x y (k_compressed k) b.
Proof.
  intros VK E. destruct (public_key_of k VK) as (x & y & E' & _ & ON & X & Y). rewrite E in E'. assert (K = PublicKey (x, y) (k_network k) (k_compressed k)) as -> by congruence.
  pose proof secp_lt as LT. destruct (pk_to_bytes_ok x y (k_network k) (k_compressed k)) as (b & EB & SO); [clear -X LT; lia|intros _; clear -Y LT; lia|]. exists x, y, b. cbn [pk_pair]. auto 10.
Qed.
Lemma keys_mirror_bytes k K K' : valid_key k -> k_compressed k = true -> pk_from_private_key k = Ok K ->
  pk_from_private_key (PrivateKey (curve_order - k_secret k) (k_network k) (k_compressed k)) = Ok K' ->
  exists t, (pk_to_bytes K = Ok (x02 :: t) /\ pk_to_bytes K' = Ok (x03 :: t)) \/ (pk_to_bytes K = Ok (x03 :: t) /\ pk_to_bytes K' = Ok (x02 :: t)).
Proof.
  intros VK C E E'. pose proof (keys_mirror k K VK E) as M. rewrite E' in M.
  destruct (sec_bytes k K VK E) as (x & y & b & PE & ON & X & Y & EB & SO). destruct (sec_bytes _ K' (mirror_key k VK) E') as (x' & y' & b' & PE' & ON' & X' & Y' & EB' & SO').
  assert (K' = PublicKey (x, secp_p - y) (k_network k) (k_compressed k)) as EK by (rewrite PE in M; cbn [fst snd] in M; congruence).
  rewrite EK in PE'. cbn [pk_pair] in PE'. assert (x' = x /\ y' = secp_p - y) as (-> & ->) by (split; congruence). cbn [k_compressed] in SO'. rewrite C in SO, SO'.
  assert (Y0 : 0 < y < secp_p) by (clear -Y Y'; lia). pose proof (parity_flip y Y0) as PF.
  inversion SO as [|xs L EX EV|xs L EX OV]; inversion SO' as [|xs' L' EX' EV'|xs' L' EX' OV']; subst b b'.
  - exfalso. apply PF in EV. apply Zeven_equiv in EV'. apply Zodd_equiv in EV. exact (Zodd_not_Zeven _ EV EV').
  - exists xs. left. split; [exact EB|]. rewrite EB'. f_equal. f_equal. apply be_val_inj; congruence.
  - exists xs. right. split; [exact EB|]. rewrite EB'. f_equal. f_equal. apply be_val_inj; congruence.
  - exfalso. destruct (Z.Even_or_Odd y) as [EV|_].
    + apply Zeven_equiv in EV. apply Zodd_equiv in OV. exact (Zodd_not_Zeven _ OV EV).
    + assert (N : ~ Z.Even y) by (intros EV; apply Zeven_equiv in EV; apply Zodd_equiv in OV; exact (Zodd_not_Zeven _ OV EV)).
      apply N, PF, OV'.
Qed.
Lemma keys_same_x k k' K K' : valid_key k -> valid_key k' -> pk_from_private_key k = Ok K -> pk_from_private_key k' = Ok K' ->
  fst (pk_pair K) = fst (pk_pair K') -> k_secret k' = k_secret k \/ k_secret k' = curve_order - k_secret k.
Proof.
  intros (B & _) (B' & _) E E' X. apply pub_of in E, E'. destruct E as (E & _), E' as (E' & _). destruct (pk_pair K) as (x, y), (pk_pair K') as (x', y'). cbn [fst] in X. subst x'.
  pose proof (pairs_same_x secp256k1 secp_gx secp_gy key_max SG _ _ _ _ _ E E') as H. change key_max with curve_order in H. revert B B' H. generalize curve_order. intros n B B' H. clear -B B' H.
  rewrite !(Z.mod_small (k_secret _)) in H by lia. destruct H as [H|H]; [left; exact H|right].
  replace (- k_secret k) with (n - k_secret k + (-1) * n) in H by lia. rewrite Z_mod_plus_full, Z.mod_small in H by lia. exact H.
Qed.
Lemma keys_shared k k' K K' : valid_key k -> valid_key k' -> pk_from_private_key k = Ok K -> pk_from_private_key k' = Ok K' ->
  exists x y o o', p_mul secp256k1 (pt K') (k_secret k) = Ok (PAff x y o) /\ p_mul secp256k1 (pt K) (k_secret k') = Ok (PAff x y o') /\
    public_point ((k_secret k * k_secret k') mod curve_order) x y.
Proof.
  intros (B & _) (B' & _) E E'. apply pub_of in E, E'. destruct E as (E & _), E' as (E' & _). unfold pt. destruct (pk_pair K) as (x, y), (pk_pair K') as (x', y'). cbn [fst snd].
  destruct (shared secp256k1 secp_gx secp_gy key_max SG _ _ _ _ _ _ B B' E E') as (u & v & o & o' & S1 & S2 & S3). exists u, v, o, o'. split; [exact S1|]. split; [exact S2|].
  change (PAff secp_gx secp_gy (Some key_max)) with secp_G in S3. rewrite <- pps_mod in S3. apply pps_pp; [|exact S3].
  pose proof (Z.mod_pos_bound (k_secret k * k_secret k') curve_order ltac:(reflexivity)) as MB.
  destruct (Z.eq_dec ((k_secret k * k_secret k') mod curve_order) 0) as [Z|Z]; [|clear -MB Z; revert MB Z; generalize curve_order; intros; lia].
  rewrite Z in S3. exfalso. pose proof (proj2 (pps_none secp256k1 secp_gx secp_gy key_max SG 0) eq_refl) as PN. change (PAff secp_gx secp_gy (Some key_max)) with secp_G in PN. congruence.
Qed.

(** ** BIP 32 *)
Lemma child_secret d x y cp chain i child chain' : public_point d x y -> ckd_pub x y cp chain i child chain' ->
  exists s, ckd_priv d x y cp chain i s chain' /\ 0 <= s < curve_order /\ multiple secp_p 0 (EA secp_gx secp_gy) s child.
Proof.
  intros PP (sec & is & left & A & SO & SI & HM & MU & SU). exists ((left + d) mod curve_order). split; [exists sec, is, left; auto|].
  split; [apply Z.mod_pos_bound; reflexivity|].
  destruct (dmul secp256k1 secp_gx secp_gy key_max SG left) as (R & ER & VR & RR & CR).
  assert (ZL : forall k P, multiple secp_p 0 (EA secp_gx secp_gy) (k mod curve_order) (P_EC.unemb secp256k1 P) <-> P = zG secp256k1 secp_gx secp_gy key_max k).
  { exact (zG_multiple secp256k1 secp_gx secp_gy key_max SG). }
  assert (EA1 : A = P_EC.unemb secp256k1 (zG secp256k1 secp_gx secp_gy key_max left)).
  { apply (multiple_fun secp256k1 (proj1 secp_curve) (proj1 (proj2 secp_curve)) secp_G (left mod curve_order)); [exact (dg_valid secp256k1 secp_gx secp_gy key_max SG)| |].
    - change (stands (c_p secp256k1) secp_G) with (EA secp_gx secp_gy). exact MU.
    - apply ZL. reflexivity. }
  destruct (pp_pair _ _ _ PP) as (E & ON). destruct (pair_emb secp256k1 secp_gx secp_gy key_max SG d x y E) as (_ & CQ & _).
  assert (EQ : EA x y = P_EC.unemb secp256k1 (zG secp256k1 secp_gx secp_gy key_max d)).
  { rewrite <- CQ, P_EC.unemb_emb. cbn [stands]. destruct ON as (X & Y & _). change (c_p secp256k1) with secp_p. rewrite !Z.mod_small by assumption. reflexivity. }
  rewrite EA1, EQ in SU. apply (is_sum_gadd secp256k1 (proj1 secp_curve) (proj1 (proj2 secp_curve))) in SU.
  2, 3: apply (zG_on secp256k1 (proj1 secp_curve) (proj1 (proj2 secp_curve)) secp_gx secp_gy key_max (dg_valid secp256k1 secp_gx secp_gy key_max SG)).
  rewrite SU. apply ZL.
  exact (zG_add secp256k1 (proj1 secp_curve) (proj1 (proj2 secp_curve)) (proj1 (proj2 (proj2 secp_curve))) secp_gx secp_gy key_max key_max_prime
    (dg_valid secp256k1 secp_gx secp_gy key_max SG) (dg_order secp256k1 secp_gx secp_gy key_max SG) left d).
Qed.
Lemma hd_child h i a d : public_point d (fst (pk_pair (hp_pubkey h))) (snd (pk_pair (hp_pubkey h))) -> hdpub_derive h i false = Ok a ->
  exists s, ckd_priv d (fst (pk_pair (hp_pubkey h))) (snd (pk_pair (hp_pubkey h))) (pk_compressed (hp_pubkey h)) (hp_chain h) (hp_index h) s (hp_chain a) /\
    public_point s (fst (pk_pair (hp_pubkey a))) (snd (pk_pair (hp_pubkey a))).
Proof.
  intros PP E. destruct (pp_pair _ _ _ PP) as (_ & ON). destruct (pk_pair (hp_pubkey h)) as (x, y) eqn:PE. cbn [fst snd] in *.
  destruct (hdpub_derive_spec h i x y PE ON) as (child & chain' & CK & M). destruct (child_secret d x y _ _ _ _ _ PP CK) as (s & CP & B & MS).
  destruct child as [|x' y']; [congruence|]. destruct M as (_ & f & _ & E'). rewrite E in E'. injection E' as ->. cbn [hp_pubkey hp_chain pk_pair fst snd].
  exists s. split; [exact CP|]. split; [|exact MS]. destruct (Z.eq_dec s 0) as [->|Z]; [|clear -B Z; revert B Z; generalize curve_order; intros; lia].
  exfalso. pose proof (proj2 (dg_order_spec secp256k1 secp_gx secp_gy key_max SG 0 (EA x' y') MS) eq_refl). discriminate.
Qed.

(** ** the whole curve *)
Lemma secp_big : 2 * secp_p + 1 < 3 * key_max. Proof. reflexivity. Qed.
Lemma secp_whole x y : on_curve secp_p 0 7 (EA x y) -> exists d, public_point d x y /\ forall d', public_point d' x y -> d' = d.
Proof.
  intros O. destruct (whole_curve secp256k1 secp_gx secp_gy key_max SG secp_big (EA x y) O) as (d & B & M & U). exists d. split.
  - split; [|exact M]. destruct (Z.eq_dec d 0) as [->|Z]; [|split; [destruct B as (B & _); clear -B Z; lia|exact (proj2 B)]].
    exfalso. pose proof (proj2 (dg_order_spec secp256k1 secp_gx secp_gy key_max SG 0 (EA x y) M) eq_refl). discriminate.
  - intros d' (B' & M'). apply U; [|exact M']. split; [apply Z.lt_le_incl, B'|apply B'].
Qed.
Lemma key_secret x y v cp K : new_pubkey (x, y) v cp = Ok K -> 0 <= x < secp_p -> 0 <= y < secp_p ->
  exists d, 0 < d < curve_order /\ forall d', 0 < d' < curve_order -> (pk_from_private_key (PrivateKey d' (pk_network K) cp) = Ok K <-> d' = d).
Proof.
  intros E X Y. apply new_pubkey_iff in E. destruct E as (m & _ & ON & ->). cbn [pk_network].
  destruct (secp_whole x y) as (d & PP & U); [split; [exact X|]; split; [exact Y|unfold secp_on in ON; rewrite ON; f_equal; ring]|]. exists d. split; [exact (proj1 PP)|]. intros d' B. rewrite pub_iff. split.
  - intros (x' & y' & E & H). injection H as <- <-. apply U, pps_pp; [exact B|exact E].
  - intros ->. exists x, y. split; [exact (proj1 (pp_pair _ _ _ PP))|reflexivity].
Qed.
Lemma bytes_secret b v K x y : pk_from_bytes b v = Ok K -> pk_pair K = (x, y) -> 0 <= x < secp_p -> 0 <= y < secp_p ->
  exists d, 0 < d < curve_order /\ forall d', 0 < d' < curve_order -> (pk_from_private_key (PrivateKey d' (pk_network K) (pk_compressed K)) = Ok K <-> d' = d).
Proof.
  intros E PE X Y. unfold pk_from_bytes in E. destruct (recatch _ _ _) as [(x', y')|] in E; [|discriminate]. cbn [bind] in E.
  pose proof E as E'. apply new_pubkey_iff in E'. destruct E' as (m & _ & _ & EK). rewrite EK in PE. cbn [pk_pair] in PE. assert (x' = x /\ y' = y) as (-> & ->) by (split; congruence).
  assert (CP : pk_compressed K = is_sec_compressed b) by (rewrite EK; reflexivity). rewrite CP. exact (key_secret x y v _ K E X Y).
Qed.
Lemma not_every_key : ~ (forall x y v cp K, new_pubkey (x, y) v cp = Ok K -> exists d, 0 < d < curve_order /\ pk_from_private_key (PrivateKey d (pk_network K) cp) = Ok K).
Proof.
  intros H. assert (E : new_pubkey (secp_gx + secp_p, secp_gy) (VNet livenet) true = Ok (PublicKey (secp_gx + secp_p, secp_gy) livenet true)).
  { apply new_pubkey_iff. exists livenet. split; [apply find_net|]. split; [vm_compute; reflexivity|reflexivity]. }
  destruct (H _ _ _ _ _ E) as (d & B & F). cbn [pk_network] in F. destruct (public_key_of (PrivateKey d livenet true) (conj B (or_introl eq_refl))) as (x & y & F' & _ & _ & X & _).
  rewrite F in F'. injection F' as F' _. subst x. destruct X as (_ & X). revert X. vm_compute. discriminate.
Qed.
