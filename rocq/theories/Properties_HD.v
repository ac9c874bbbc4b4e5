(** Property theorems C62-C64, C78, C79: hierarchical keys. *)
From Coq Require Import ZArith List String.
From Verif Require Import Base M_Hash M_Codec S_Codec M_Keys S_Keys M_EC S_EC M_HD S_HD P_HD.
Import ListNotations.
Open Scope Z_scope.

(** *** C62 *)
Theorem C62_public : forall s h, hdpub_from_string s = Ok h <->
  exists b rest version depth parent index chain key n x y f,
    check_text (b ++ rest) s /\ hd_layout version depth parent index chain key b /\ network_number n "hd_public_key" version /\
    sec_of x y true key /\ secp_on x y /\ 0 <= y < secp_p /\ fingerprint_of x y true f /\
    h = HDPub (PublicKey (x, y) n true) chain depth index parent n f.
Proof. exact hdpub_from_string_iff. Qed.
Print Assumptions C62_public.

Theorem C62_private : forall s h, hdpriv_from_string s = Ok h <->
  exists b rest version depth parent index chain pad sk n x y f,
    check_text (b ++ rest) s /\ hd_layout version depth parent index chain (pad :: sk) b /\ network_number n "hd_private_key" version /\
    0 < be_val sk < curve_order /\ point_of (be_val sk) x y /\ fingerprint_of x y true f /\
    h = HDPriv (PrivateKey (be_val sk) n true) chain depth index parent n f.
Proof. exact hdpriv_from_string_iff. Qed.
Print Assumptions C62_private.

Theorem C62_public_errors : forall s e, hdpub_from_string s = Err e ->
  e = E_UtilsEncodingError \/ e = E_UnicodeDecodeError \/ e = E_UnknownNetwork \/ e = E_Pub_InvalidBinary \/ e = E_Pub_InvalidPair.
Proof. exact hdpub_from_string_err. Qed.
Print Assumptions C62_public_errors.

Theorem C62_private_errors : forall s e, hdpriv_from_string s = Err e ->
  e = E_UtilsEncodingError \/ e = E_UnicodeDecodeError \/ e = E_UnknownNetwork \/ e = E_Priv_InvalidBinaryLength \/ e = E_Priv_InvalidSecret.
Proof. exact hdpriv_from_string_err. Qed.
Print Assumptions C62_private_errors.

Theorem C62_public_unknown_version : forall s b rest version depth parent index chain key, check_text (b ++ rest) s -> hd_layout version depth parent index chain key b ->
  (forall n, ~ network_number n "hd_public_key" version) -> hdpub_from_string s = Err E_UnknownNetwork.
Proof. exact hdpub_unknown_version. Qed.
Print Assumptions C62_public_unknown_version.

Theorem C62_private_unknown_version : forall s b rest version depth parent index chain key, check_text (b ++ rest) s -> hd_layout version depth parent index chain key b ->
  (forall n, ~ network_number n "hd_private_key" version) -> hdpriv_from_string s = Err E_UnknownNetwork.
Proof. exact hdpriv_unknown_version. Qed.
Print Assumptions C62_private_unknown_version.

Theorem C62_short_refused : forall s data, check_text data s -> (length data < 78)%nat -> (exists e, hdpub_from_string s = Err e) /\ (exists e, hdpriv_from_string s = Err e).
Proof. exact hd_short. Qed.
Print Assumptions C62_short_refused.

Theorem C62_pad_byte_refuted : ~ (forall t h b rest version depth parent index chain pad sk, hdpriv_from_string t = Ok h -> check_text (b ++ rest) t ->
  hd_layout version depth parent index chain (pad :: sk) b -> pad = x00).
Proof. exact hd_pad_unchecked. Qed.
Print Assumptions C62_pad_byte_refuted.

Theorem C62_length_refuted : ~ (forall t h data, hdpriv_from_string t = Ok h -> check_text data t -> length data = 78%nat).
Proof. exact hd_length_unchecked. Qed.
Print Assumptions C62_length_refuted.

Theorem C62_not_injective : exists t t' h, t <> t' /\ hdpriv_from_string t = Ok h /\ hdpriv_from_string t' = Ok h.
Proof. exact hd_not_injective. Qed.
Print Assumptions C62_not_injective.

(** The text of version 0x0488ade4, depth 0, parent 0, index 0, an all-zero chain code and the secret 1. *)
Example C62_ex : hdpriv_from_string (txt "xprv9s21ZrQH143K24Mfq5zL5MhWK9hUhhGbd45hLXo2Pq2oqzMMo63oStZzF93Y5wvzdUayhgkkFoicQZcP3y52uPPxFnfoLZB21TeqtDeZVxb") =
    Ok (HDPriv (PrivateKey 1 livenet true) (zeros 32) 0 0 0 livenet 1964930792) /\
  hd_layout 76066276 0 0 0 (zeros 32) (x00 :: be_bytes 32 1) (hd_raw x00 []) /\
  hdpub_from_string (txt "xprv9s21ZrQH143K24Mfq5zL5MhWK9hUhhGbd45hLXo2Pq2oqzMMo63oStZzF93Y5wvzdUayhgkkFoicQZcP3y52uPPxFnfoLZB21TeqtDeZVxb") = Err E_UnknownNetwork /\
  hdpriv_from_string (txt "xprv0") = Err E_UtilsEncodingError.
Proof. split; [vm_compute; reflexivity|]. split; [apply hd_raw_layout|]. split; vm_compute; reflexivity. Qed.

(** *** C63 *)
Theorem C63_public_text_fails : forall h, known (hp_network h) -> hdpub_to_string h = Err E_UnicodeDecodeError.
Proof. exact hdpub_to_string_fails. Qed.
Print Assumptions C63_public_text_fails.

Theorem C63_private_text_fails : forall h, known (hv_network h) -> hdpriv_to_string h = Err E_UnicodeDecodeError.
Proof. exact hdpriv_to_string_fails. Qed.
Print Assumptions C63_private_text_fails.

Theorem C63_private_derive_never : forall h i hd, exists e, hdpriv_derive h i hd = Err e.
Proof. exact hdpriv_derive_never. Qed.
Print Assumptions C63_private_derive_never.

Theorem C63_derive_normal : forall h i, valid_key (hv_privkey h) -> hdpriv_derive h i false = Err E_AttributeError.
Proof. exact hdpriv_derive_normal. Qed.
Print Assumptions C63_derive_normal.

Theorem C63_derive_hardened : forall h i, hdpriv_derive h i true =
  Err (if all_ascii (priv_to_bytes (hv_privkey h) ++ be_bytes 4 (hv_index h)) then E_AttributeError else E_UnicodeDecodeError).
Proof. exact hdpriv_derive_hardened. Qed.
Print Assumptions C63_derive_hardened.

Theorem C63_roundtrip_refuted : ~ (forall h, known (hp_network h) -> exists t, hdpub_to_string h = Ok t /\ hdpub_from_string t = Ok h).
Proof. exact hd_text_refuted. Qed.
Print Assumptions C63_roundtrip_refuted.

Theorem C63_derivation_refuted : ~ (forall h i, valid_key (hv_privkey h) -> exists c, hdpriv_derive h i false = Ok c).
Proof. exact hd_derive_refuted. Qed.
Print Assumptions C63_derivation_refuted.

Example C63_ex : let h := HDPriv (PrivateKey 1 testnet true) (zeros 32) 0 0 0 testnet 0 in
  valid_key (hv_privkey h) /\ known (hv_network h) /\ hdpriv_to_string h = Err E_UnicodeDecodeError /\
  hdpriv_derive h 7 false = Err E_AttributeError /\ hdpriv_derive h 7 true = Err E_AttributeError /\
  hdpriv_derive (HDPriv (PrivateKey 200 testnet true) (zeros 32) 0 0 0 testnet 0) 7 true = Err E_UnicodeDecodeError.
Proof.
  split; [split; [split; vm_compute; reflexivity|right; reflexivity]|]. split; [right; reflexivity|]. split; [vm_compute; reflexivity|].
  split; [apply C63_derive_normal; split; [split; vm_compute; reflexivity|right; reflexivity]|]. split; vm_compute; reflexivity.
Qed.

(** *** C64 *)
Theorem C64_derive : forall h i x y, pk_pair (hp_pubkey h) = (x, y) -> on_curve secp_p 0 7 (EA x y) ->
  exists child chain', ckd_pub x y (pk_compressed (hp_pubkey h)) (hp_chain h) (hp_index h) child chain' /\
    match child with
    | EO => hdpub_derive h i false = Err E_TypeError
    | EA x' y' => on_curve secp_p 0 7 child /\ exists f, fingerprint_of x' y' true f /\
        hdpub_derive h i false = Ok (HDPub (PublicKey (x', y') (hp_network h) true) chain' (hp_depth h + 1) i (hp_fingerprint h) (hp_network h) f)
    end.
Proof. exact hdpub_derive_spec. Qed.
Print Assumptions C64_derive.

Theorem C64_index_ignored : forall h i j a b, hdpub_derive h i false = Ok a -> hdpub_derive h j false = Ok b ->
  hp_pubkey a = hp_pubkey b /\ hp_chain a = hp_chain b /\ hp_fingerprint a = hp_fingerprint b /\ hp_index a = i /\ hp_index b = j.
Proof. exact hdpub_derive_same. Qed.
Print Assumptions C64_index_ignored.

Theorem C64_all_or_none : forall h i j, (exists a, hdpub_derive h i false = Ok a) -> exists b, hdpub_derive h j false = Ok b.
Proof. exact hdpub_derive_any. Qed.
Print Assumptions C64_all_or_none.

Theorem C64_recorded : forall h i a, hdpub_derive h i false = Ok a ->
  hp_index a = i /\ hp_depth a = hp_depth h + 1 /\ hp_parent a = hp_fingerprint h /\ hp_network a = hp_network h /\
  pk_network (hp_pubkey a) = hp_network h /\ pk_compressed (hp_pubkey a) = true.
Proof. exact hdpub_derive_fields. Qed.
Print Assumptions C64_recorded.

Theorem C64_hardened_refused : forall h i, hdpub_derive h i true = Err E_ValueError.
Proof. exact hdpub_hardened. Qed.
Print Assumptions C64_hardened_refused.

Theorem C64_bip32_refuted : ~ (forall h i x y a, on_curve secp_p 0 7 (EA x y) -> pk_pair (hp_pubkey h) = (x, y) -> 0 <= i < 2 ^ 31 ->
  hdpub_derive h i false = Ok a -> exists child, ckd_pub x y (pk_compressed (hp_pubkey h)) (hp_chain h) i child (hp_chain a)).
Proof. exact hd_not_bip32. Qed.
Print Assumptions C64_bip32_refuted.

Theorem C64_distinct_refuted : ~ (forall h i j a b, i <> j -> hdpub_derive h i false = Ok a -> hdpub_derive h j false = Ok b -> hp_pubkey a <> hp_pubkey b).
Proof. exact hd_not_distinct. Qed.
Print Assumptions C64_distinct_refuted.

Example C64_ex : on_curve secp_p 0 7 (EA secp_gx secp_gy) /\ (exists a, hdpub_derive hd_G 5 false = Ok a /\ hp_index a = 5 /\ hp_depth a = 1) /\
  hdpub_derive hd_G 5 true = Err E_ValueError.
Proof.
  split; [exact G_on|]. split; [|reflexivity]. destruct (hd_G_derives 5) as (a & E & _). exists a. split; [exact E|].
  destruct (C64_recorded _ _ _ E) as (I & D & _). split; [exact I|exact D].
Qed.

(** *** C78 *)
Theorem C78_from_seed : forall seed h, hdpriv_from_seed seed = Ok h <->
  32 <= blen seed /\ exists secret chain x y f, master seed secret chain /\ point_of secret x y /\ fingerprint_of x y true f /\
    h = HDPriv (PrivateKey secret livenet true) chain 0 0 0 livenet f.
Proof. exact from_seed_iff. Qed.
Print Assumptions C78_from_seed.

Theorem C78_from_seed_errors : forall seed e, hdpriv_from_seed seed = Err e <->
  (e = E_ValueError /\ blen seed < 32) \/ (e = E_Priv_InvalidSecret /\ 32 <= blen seed /\ forall secret chain, ~ master seed secret chain).
Proof. exact from_seed_err. Qed.
Print Assumptions C78_from_seed_errors.

Theorem C78_bip32_seed_refuted : ~ (forall seed, 16 <= blen seed <= 64 -> (exists secret chain, master seed secret chain) -> exists h, hdpriv_from_seed seed = Ok h).
Proof. exact short_seed_refused. Qed.
Print Assumptions C78_bip32_seed_refuted.

Example C78_ex : hdpriv_from_seed (zeros 31) = Err E_ValueError /\
  exists h, hdpriv_from_seed (zeros 32) = Ok h /\ hv_depth h = 0 /\ hv_network h = livenet.
Proof.
  split; [reflexivity|]. destruct (hdpriv_from_seed (zeros 32)) as [h|e] eqn:E.
  - exists h. split; [reflexivity|]. apply C78_from_seed in E. destruct E as (_ & s & c & x & y & f & _ & _ & _ & ->). split; reflexivity.
  - exfalso. apply C78_from_seed_errors in E. destruct E as [(_ & L)|(_ & _ & N)]; [vm_compute in L; discriminate|]. apply (N _ _ zero_seed).
Qed.

(** *** C79 *)
Theorem C79_public_half : forall h, valid_key (hv_privkey h) -> exists x y f, point_of (k_secret (hv_privkey h)) x y /\
  fingerprint_of x y (k_compressed (hv_privkey h)) f /\
  hdpub_from_hdpriv h = Ok (HDPub (PublicKey (x, y) (k_network (hv_privkey h)) (k_compressed (hv_privkey h))) (hv_chain h) (hv_depth h) (hv_index h) (hv_parent h) (hv_network h) f).
Proof. exact to_hdpub_ok. Qed.
Print Assumptions C79_public_half.

Theorem C79_same_fingerprint : forall k chain depth index parent net h p, valid_key k -> new_hdpriv k chain depth index parent net = Ok h -> hdpub_from_hdpriv h = Ok p ->
  hp_fingerprint p = hv_fingerprint h.
Proof. exact to_hdpub_fingerprint. Qed.
Print Assumptions C79_same_fingerprint.

Example C79_ex : let h := HDPriv (PrivateKey 1 testnet true) (zeros 32) 3 4 5 testnet 0 in valid_key (hv_privkey h) /\
  hdpub_from_hdpriv h = Ok (HDPub (PublicKey (secp_gx, secp_gy) testnet true) (zeros 32) 3 4 5 testnet 1964930792).
Proof. split; [split; [split; vm_compute; reflexivity|right; reflexivity]|]. vm_compute. reflexivity. Qed.
