(** Public keys in scripts, addresses and inputs. *)
From Coq Require Import ZArith Lia Bool List String.
From Verif Require Import Base M_Hash M_Codec S_Codec P_Codec M_Keys S_Keys P_Keys M_EC S_EC M_Script S_Script P_Script M_Tx S_Tx P_Tx P_TxSign P_PubKey.
Import ListNotations.
Open Scope Z_scope.

Lemma usable_bytes k : usable_pub k -> exists b, pk_to_bytes k = Ok b /\
  sec_of (fst (pk_pair k)) (snd (pk_pair k)) (pk_compressed k) b /\ (length b = if pk_compressed k then 33%nat else 65%nat) /\
  pk_from_bytes (Str b) (VNet livenet) = Ok (on_livenet k) /\ pk_from_bytes (Str b) (VNet (pk_network k)) = Ok k.
Proof.
  destruct k as [(x & y) n cp]. intros (ON & X & Y). cbn [pk_compressed] in Y.
  destruct (pk_roundtrip x y n cp ON X Y) as (b & E & SO & R). exists b. split; [exact E|]. split; [exact SO|].
  destruct (pk_roundtrip x y livenet cp ON X Y) as (b' & E' & _ & R').
  assert (b' = b) by (unfold pk_to_bytes in *; cbn [pk_pair pk_compressed] in *; congruence). subst b'.
  split; [|split; [exact R'|exact R]]. inversion SO; subst; cbn [length]; rewrite ?app_length; cbn [pk_compressed]; lia.
Qed.
Lemma sec_unique x y cp b b' : sec_of x y cp b -> sec_of x y cp b' -> b = b'.
Proof.
  intros A B. assert (J : forall u v, List.length u = 32%nat -> List.length v = 32%nat -> be_val u = be_val v -> u = v).
  { intros u v U V0 E. apply be_val_inj; [congruence|exact E]. }
  assert (EO : Z.Even y -> Z.Odd y -> False). { intros (m & M) (m' & M'). lia. }
  inversion A; subst; inversion B; subst; try (exfalso; eauto; fail); f_equal; try (f_equal; apply J; congruence); apply J; congruence.
Qed.
Lemma valid_key_usable k : valid_key k -> exists p, pk_from_private_key k = Ok p /\ usable_pub p /\
  pk_network p = k_network k /\ pk_compressed p = k_compressed k.
Proof.
  intros V. destruct (public_key_of k V) as (x & y & E & _ & ON & X & Y). eexists. split; [exact E|]. split; [|split; reflexivity].
  split; [exact ON|]. split; [destruct X; split; [assumption|eapply Z.lt_trans; [eassumption|reflexivity]]|].
  cbn [pk_compressed]. destruct (k_compressed k); [exact Y|]. destruct Y; split; [assumption|eapply Z.lt_trans; [eassumption|reflexivity]].
Qed.

(** ** templates *)
Lemma p2pk_in_key k sig s : p2pk_in_create k sig = Ok s -> usable_pub k -> get_public_key s = Ok (on_livenet k).
Proof.
  intros H U. apply p2pk_in_ok in H. destruct H as (kb & E & _ & _ & _ & ->). destruct (usable_bytes k U) as (b & E' & _ & _ & R & _).
  rewrite E in E'. injection E' as <-. exact R.
Qed.
Lemma p2pk_in_total k sig : usable_pub k -> 1 <= blen sig <= 4294967295 -> exists s, p2pk_in_create k (Str sig) = Ok s.
Proof.
  intros U L. destruct (usable_bytes k U) as (b & E & _ & LB & _). unfold p2pk_in_create. rewrite E. cbn [bind]. unfold sub_create. cbn [to_instructions].
  destruct (to_instruction_bytes_ok sig L) as (i & I). rewrite I.
  destruct (to_instruction_bytes_ok b) as (j & J); [unfold blen; rewrite LB; destruct (pk_compressed k); lia|]. rewrite J. cbn [bind]. eauto.
Qed.
Lemma multisig_keys ks m s : multisig_create ks m = Ok s -> Forall usable_pub ks -> get_public_keys s = Ok (map on_livenet ks).
Proof.
  intros H U. apply multisig_ok in H. destruct H as (bs & F & _ & _ & _ & _ & _ & G). apply G. clear G.
  induction F as [|k b ks bs E F IH]; [constructor|]. inversion U as [|? ? U1 U2]; subst. cbn [map]. constructor; [|apply IH, U2].
  destruct (usable_bytes k U1) as (b' & E' & _ & _ & R & _). rewrite E in E'. injection E' as <-. exact R.
Qed.
Lemma multisig_total ks m : Forall usable_pub ks -> 0 <= m <= 16 -> blen ks <= 16 -> exists s, multisig_create ks m = Ok s.
Proof.
  intros U M L. assert (NUM : forall z, 0 <= z <= 16 -> exists o, for_number z = Ok o /\ ~ pushes o).
  { intros z Z0. destruct (Z.eq_dec z 0) as [->|NZ].
    - exists OP_0. split; [reflexivity|]. unfold pushes. vm_compute. intuition discriminate.
    - exists (Zb (80 + z)). split; [apply for_number_ok; right; rewrite bZ_Zb by lia; lia|]. unfold pushes. rewrite bZ_Zb by lia. lia. }
  assert (PB : exists bs, pubkeys_bytes ks = Ok bs /\ Forall (fun b => 1 <= blen b <= 4294967295) bs).
  { clear L. induction U as [|k ks U1 U2 IH]; [exists []; split; [reflexivity|constructor]|]. destruct IH as (bs & E & F).
    destruct (usable_bytes k U1) as (b & E1 & _ & LB & _). exists (b :: bs). cbn [pubkeys_bytes]. rewrite E1, E. split; [reflexivity|].
    constructor; [|exact F]. unfold blen. rewrite LB. destruct (pk_compressed k); lia. }
  destruct PB as (bs & E & F). destruct (NUM m M) as (om & Em & Pm). destruct (NUM (blen ks)) as (on & En & Pn); [unfold blen in *; lia|].
  unfold multisig_create. rewrite Em, E. cbn [bind]. rewrite En. cbn [bind]. unfold sub_create.
  assert (TI : exists ins, to_instructions ([I_Op om] ++ map (fun b => I_Bytes (Str b)) bs ++ [I_Op on] ++ [I_Op OP_CHECKMULTISIG]) = Ok ins).
  { cbn [app to_instructions]. rewrite to_instruction_op_ok by exact Pm. cbn [bind].
    assert (T : exists ins, to_instructions (map (fun b => I_Bytes (Str b)) bs ++ [I_Op on; I_Op OP_CHECKMULTISIG]) = Ok ins).
    { clear E. induction F as [|b bs B F IH].
      - cbn [map app to_instructions]. rewrite to_instruction_op_ok by exact Pn. rewrite to_instruction_op_ok by (unfold pushes; vm_compute; intuition discriminate).
        cbn [bind]. eauto.
      - destruct IH as (ins & IH). cbn [map app to_instructions]. destruct (to_instruction_bytes_ok b B) as (i & ->). rewrite IH. cbn [bind]. eauto. }
    destruct T as (ins & ->). cbn [bind]. eauto. }
  destruct TI as (ins & ->). cbn [bind]. eauto.
Qed.

(** ** addresses of keys *)
Lemma addr_of_key k : usable_pub k -> known (pk_network k) -> exists h, key_hash k h /\
  addr_from_public_key k = Ok (Address (Str h) (pk_network k) T_PublicKey) /\ valid_addr (Address (Str h) (pk_network k) T_PublicKey).
Proof.
  intros U K. destruct (usable_bytes k U) as (b & E & SO & _). exists (ripemd160 (sha256 b)). split; [exists b; auto|].
  unfold addr_from_public_key. rewrite E. cbn [bind].
  assert (L : List.length (ripemd160 (sha256 b)) = 20%nat) by apply ripemd160_length. split; [|split; [exact K|exists (ripemd160 (sha256 b)); auto]].
  apply new_address_ok. exists (pk_network k), T_PublicKey. split; [apply find_net|]. split; [reflexivity|]. split; [exact L|reflexivity].
Qed.
Lemma priv_address k : valid_key k -> exists p h, pk_from_private_key k = Ok p /\ key_hash p h /\
  priv_to_address k = Ok (Address (Str h) (k_network k) T_PublicKey).
Proof.
  intros V. destruct (valid_key_usable k V) as (p & E & U & N & _). destruct V as (_ & K). rewrite <- N in K.
  destruct (addr_of_key p U K) as (h & H & A & _). exists p, h. split; [exact E|]. split; [exact H|].
  unfold priv_to_address. rewrite E. cbn [bind]. rewrite A, N. reflexivity.
Qed.
Lemma key_hash_fun k h h' : key_hash k h -> key_hash k h' -> h = h'.
Proof. intros (b & A & ->) (b' & B & ->). rewrite (sec_unique _ _ _ _ _ A B). reflexivity. Qed.

(** ** address inputs *)
Lemma address_can_sign_spec id n a q i k : address_input_create id n a q = Ok i -> valid_key k ->
  exists p h b, pk_from_private_key k = Ok p /\ key_hash p h /\ address_can_sign i [k] = Ok b /\ (b = true <-> h = pyb_bytes (a_phash a)).
Proof.
  intros H V. destruct (priv_address k V) as (p & h & E & KH & A). apply address_create_ok in H. destruct H as (_ & _ & _ & _ & C & _ & G).
  unfold address_can_sign. rewrite A. cbn [bind]. rewrite C, G. cbn [bind a_phash]. exists p, h. eexists. split; [exact E|]. split; [exact KH|].
  split; [reflexivity|]. unfold pyb_eqb. cbn [pyb_bytes]. apply bytes_eqb_eq.
Qed.
Lemma address_sign_total sg i k p st : in_class_of i = C_AddressInput -> valid_key k -> 0 <= st <= 255 -> blen (sg 0%nat (k_secret k) p) < 4294967295 ->
  exists i', input_sign sg i [k] p st = Ok i'.
Proof.
  intros C V S L. unfold input_sign. rewrite C. destruct (valid_key_usable k V) as (pub & E & U & _). unfold priv_to_public_key. rewrite E. cbn [bind].
  unfold py_chr. replace ((0 <=? st) && (st <? 256)) with true by lia. cbn [bind].
  destruct (p2pk_in_total pub (sg 0%nat (k_secret k) p ++ [Zb st]) U) as (s & ->); [|cbn [bind]; eauto].
  unfold blen in *. rewrite app_length. cbn [List.length]. lia.
Qed.
(** the key pushed by [sign] hashes to the address exactly when [can_sign] says so *)
Lemma address_sign_matches sg id n a q i k p st i' : address_input_create id n a q = Ok i -> valid_key k -> input_sign sg i [k] p st = Ok i' ->
  exists kb b, data_at (in_script i') 1 = Ok (Some (Str kb)) /\ address_can_sign i [k] = Ok b /\
    (b = true <-> ripemd160 (sha256 kb) = pyb_bytes (a_phash a)).
Proof.
  intros H V S. destruct (address_can_sign_spec id n a q i k H V) as (pub & h & b & E & (kb & SO & ->) & CS & I).
  apply address_create_ok in H. destruct H as (C & _). apply address_sign_ok in S; [|exact C]. destruct S as (pub' & kb' & E' & B & _ & _ & _ & _ & D).
  unfold priv_to_public_key in E'. rewrite E in E'. injection E' as <-. exists kb', b. split; [exact D|]. split; [exact CS|].
  destruct (valid_key_usable k V) as (p2 & E2 & U & _). rewrite E in E2. injection E2 as <-. destruct (usable_bytes pub U) as (b2 & B2 & SO2 & _).
  rewrite B in B2. injection B2 as <-. rewrite (sec_unique _ _ _ _ _ SO SO2) in I. exact I.
Qed.

(** ** multisig inputs *)
Lemma pubkey_eqb_spec a b : known (pk_network a) -> known (pk_network b) -> pubkey_eqb a b = true <-> a = b.
Proof.
  destruct a as [(x & y) n c], b as [(x' & y') n' c']. unfold pubkey_eqb. cbn [pk_pair pk_network pk_compressed fst snd]. intros K K'.
  repeat rewrite andb_true_iff. rewrite !Z.eqb_eq, eqb_true_iff, bytes_eqb_eq. split.
  - intros (((-> & ->) & N) & ->). assert (n = n') by (destruct K as [->| ->], K' as [->| ->]; (reflexivity || discriminate N)). congruence.
  - intros E. injection E as -> -> -> ->. auto.
Qed.
Lemma all_expected_spec keys ex : Forall valid_key keys -> Forall (fun p => known (pk_network p)) ex ->
  exists b, all_expected keys ex = Ok b /\ (b = true <-> Forall (fun k => exists p, pk_from_private_key k = Ok p /\ In p ex) keys).
Proof.
  intros V K. induction V as [|k keys V1 V2 IH]; [exists true; split; [reflexivity|split; [constructor|auto]]|].
  cbn [all_expected]. destruct (valid_key_usable k V1) as (p & E & U & N & _). unfold priv_to_public_key. rewrite E. cbn [bind].
  assert (KP : known (pk_network p)) by (rewrite N; apply V1).
  assert (X : existsb (pubkey_eqb p) ex = true <-> In p ex).
  { rewrite existsb_exists. split.
    - intros (q & Q & H). apply pubkey_eqb_spec in H; [subst; exact Q|exact KP|]. rewrite Forall_forall in K. apply K, Q.
    - intros Q. exists p. split; [exact Q|]. apply pubkey_eqb_spec; auto. }
  destruct (existsb (pubkey_eqb p) ex); cbn [negb].
  - destruct IH as (b & E2 & I). exists b. split; [exact E2|]. rewrite I. split.
    + intros F. constructor; [exists p; split; [exact E|apply X; reflexivity]|exact F].
    + intros F. inversion F; assumption.
  - exists false. split; [reflexivity|]. split; [discriminate|]. intros F. inversion F as [|? ? (p' & E' & I') _]; subst.
    rewrite E in E'. injection E' as <-. apply X in I'. discriminate.
Qed.
Lemma multisig_can_sign_spec id n ks m q i keys : multisig_input_create id n ks m q = Ok i -> Forall usable_pub ks -> Forall valid_key keys ->
  exists b, multisig_can_sign i keys = Ok b /\
    (b = true <-> blen keys = m /\ Forall (fun k => exists p, pk_from_private_key k = Ok p /\ In p (map on_livenet ks)) keys).
Proof.
  intros H U V. apply multisig_create_fields in H. destruct H as (_ & _ & _ & _ & M). unfold multisig_can_sign.
  pose proof (multisig_keys _ _ _ M U) as GK. apply multisig_ok in M. destruct M as (bs & _ & C & _ & _ & GM & _). rewrite C, GM. cbn [bind].
  destruct (Z.eqb_spec (blen keys) m) as [L|L]; cbn [negb].
  - rewrite GK. cbn [bind]. destruct (all_expected_spec keys (map on_livenet ks) V) as (b & E & I).
    { rewrite Forall_forall. intros p P. apply in_map_iff in P. destruct P as (k & <- & _). left. reflexivity. }
    exists b. split; [exact E|]. rewrite I. tauto.
  - exists false. split; [reflexivity|]. split; [discriminate|]. intros (K & _). contradiction.
Qed.
Lemma on_livenet_id k : pk_network k = livenet -> on_livenet k = k.
Proof. destruct k as [pr n c]. cbn. intros ->. reflexivity. Qed.
Lemma multisig_can_sign_livenet id n ks m q i keys : multisig_input_create id n ks m q = Ok i -> Forall usable_pub ks ->
  Forall (fun k => pk_network k = livenet) ks -> Forall valid_key keys ->
  exists b, multisig_can_sign i keys = Ok b /\
    (b = true <-> blen keys = m /\ Forall (fun k => exists p, pk_from_private_key k = Ok p /\ In p ks) keys).
Proof.
  intros H U N V. destruct (multisig_can_sign_spec id n ks m q i keys H U V) as (b & E & I). exists b. split; [exact E|]. rewrite I.
  replace (map on_livenet ks) with ks; [reflexivity|]. clear -N. induction N as [|k ks K N IH]; [reflexivity|]. cbn [map]. rewrite <- IH, on_livenet_id by exact K. reflexivity.
Qed.
Lemma multisig_testnet_never id n ks m q i keys k : multisig_input_create id n ks m q = Ok i -> Forall usable_pub ks -> Forall valid_key keys ->
  In k keys -> k_network k = testnet -> multisig_can_sign i keys = Ok false.
Proof.
  intros H U V I N. destruct (multisig_can_sign_spec id n ks m q i keys H U V) as (b & E & J). rewrite E. destruct b; [exfalso|reflexivity].
  destruct (proj1 J eq_refl) as (_ & F). rewrite Forall_forall in F, V. destruct (F k I) as (p & P & Q).
  destruct (valid_key_usable k (V k I)) as (p' & P' & _ & N' & _). rewrite P in P'. injection P' as <-.
  apply in_map_iff in Q. destruct Q as (r & <- & _). cbn in N'. rewrite N in N'. discriminate.
Qed.
