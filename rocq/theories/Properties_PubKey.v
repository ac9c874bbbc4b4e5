(** Property theorems C18-C21, C46, C75 and additions to C36 and C45: public keys, and the
    scripts and inputs that carry them. *)
From Coq Require Import ZArith Znumtheory List String.
From Verif Require Import Base M_Hash M_Codec S_Codec M_Keys S_Keys M_EC S_EC M_Script M_Tx P_DSA P_PubKey P_PubTx.
Import ListNotations.
Open Scope Z_scope.

(** *** C18 *)
Theorem C18_uncompressed_roundtrip : forall x y n, secp_on x y -> 0 <= x < 2 ^ 256 -> 0 <= y < 2 ^ 256 ->
  exists b, pk_to_bytes (PublicKey (x, y) n false) = Ok b /\ sec_of x y false b /\
            pk_from_bytes (Str b) (VNet n) = Ok (PublicKey (x, y) n false).
Proof. exact (fun x y n => pk_roundtrip x y n false). Qed.
Print Assumptions C18_uncompressed_roundtrip.

Example C18_ex : secp_on secp_gx secp_gy /\ 0 <= secp_gx < 2 ^ 256 /\
  pk_to_bytes (PublicKey (secp_gx, secp_gy) testnet false) = Ok sec_G /\
  pk_from_bytes (Str sec_G) (VNet testnet) = Ok (PublicKey (secp_gx, secp_gy) testnet false).
Proof. split; [vm_compute; reflexivity|]. split; [split; vm_compute; congruence|]. split; vm_compute; reflexivity. Qed.

(** *** C19 *)
Theorem C19_compressed_roundtrip : forall x y n, secp_on x y -> 0 <= x < 2 ^ 256 -> 0 <= y < secp_p ->
  exists b, pk_to_bytes (PublicKey (x, y) n true) = Ok b /\ sec_of x y true b /\
            pk_from_bytes (Str b) (VNet n) = Ok (PublicKey (x, y) n true).
Proof. exact (fun x y n => pk_roundtrip x y n true). Qed.
Print Assumptions C19_compressed_roundtrip.

Theorem C19_hex_roundtrip : forall x y n (cp : bool), secp_on x y -> 0 <= x < 2 ^ 256 -> (if cp then 0 <= y < secp_p else 0 <= y < 2 ^ 256) ->
  exists h, pk_to_hex (PublicKey (x, y) n cp) = Ok h /\ pk_from_hex h (VNet n) = Ok (PublicKey (x, y) n cp).
Proof. exact pk_hex_roundtrip. Qed.
Print Assumptions C19_hex_roundtrip.

Theorem C19_decompression : forall x ev, exists y, public_pair_for_x secp256k1 x ev = Ok (x, y) /\
  (secp_on x y <-> is_square secp_p (x * x * x + 7)) /\
  (is_square secp_p (x * x * x + 7) -> 0 < y < secp_p /\ (if ev then Z.Even y else Z.Odd y)).
Proof. exact pair_for_x. Qed.
Print Assumptions C19_decompression.

Theorem C19_root_unique : forall P y y' c, prime P -> 0 <= y < P -> 0 <= y' < P -> (y * y) mod P = c mod P -> (y' * y') mod P = c mod P ->
  (Z.Even y <-> Z.Even y') -> c mod P <> 0 -> y = y'.
Proof. exact root_unique. Qed.
Print Assumptions C19_root_unique.

Example C19_ex : secp_on secp_gx secp_gy /\ 0 <= secp_gy < secp_p /\
  pk_to_bytes (PublicKey (secp_gx, secp_gy) livenet true) = Ok (x02 :: be_bytes 32 secp_gx) /\
  pk_from_bytes (Str (x02 :: be_bytes 32 secp_gx)) (VNet livenet) = Ok (PublicKey (secp_gx, secp_gy) livenet true).
Proof.
  assert (ON : secp_on secp_gx secp_gy) by (vm_compute; reflexivity). assert (Y : 0 <= secp_gy < secp_p) by (split; vm_compute; congruence).
  assert (B : pk_to_bytes (PublicKey (secp_gx, secp_gy) livenet true) = Ok (x02 :: be_bytes 32 secp_gx)) by (vm_compute; reflexivity).
  split; [exact ON|]. split; [exact Y|]. split; [exact B|].
  destruct (C19_compressed_roundtrip secp_gx secp_gy livenet ON) as (b & E & _ & R); [split; vm_compute; congruence|exact Y|].
  rewrite B in E. injection E as <-. exact R.
Qed.

(** *** C20 *)
Theorem C20_constructor : forall x y v cp k, new_pubkey (x, y) v cp = Ok k <->
  exists n, find v (txt "name") = Ok n /\ secp_on x y /\ k = PublicKey (x, y) n cp.
Proof. exact new_pubkey_iff. Qed.
Print Assumptions C20_constructor.

Theorem C20_constructor_errors : forall x y v cp e, new_pubkey (x, y) v cp = Err e <->
  (e = E_Pub_UnknownNetwork /\ find v (txt "name") = Err E_UnknownNetwork) \/
  (e = E_Pub_InvalidPair /\ ~ secp_on x y /\ exists n, find v (txt "name") = Ok n).
Proof. exact new_pubkey_err. Qed.
Print Assumptions C20_constructor_errors.

Theorem C20_parsed_on_curve : forall b v k, pk_from_bytes b v = Ok k -> secp_on (fst (pk_pair k)) (snd (pk_pair k)).
Proof. exact pk_on_curve. Qed.
Print Assumptions C20_parsed_on_curve.

Theorem C20_from_bytes_errors : forall b v e, pk_from_bytes b v = Err e -> e = E_Pub_InvalidBinary \/ e = E_Pub_InvalidPair \/ e = E_Pub_UnknownNetwork.
Proof. exact pk_from_bytes_err. Qed.
Print Assumptions C20_from_bytes_errors.

Theorem C20_from_hex_errors : forall s v e, pk_from_hex s v = Err e ->
  e = E_Pub_InvalidHex \/ e = E_Pub_InvalidBinary \/ e = E_Pub_InvalidPair \/ e = E_Pub_UnknownNetwork.
Proof. exact pk_from_hex_err. Qed.
Print Assumptions C20_from_hex_errors.

Example C20_ex : new_pubkey (secp_gx, secp_gy + 1) (VNet livenet) true = Err E_Pub_InvalidPair /\ ~ secp_on secp_gx (secp_gy + 1) /\
  new_pubkey (secp_gx, secp_gy) (VText (txt "nonet")) true = Err E_Pub_UnknownNetwork /\
  pk_from_bytes (Str [x05]) (VNet livenet) = Err E_Pub_InvalidBinary /\
  pk_from_bytes (Str (x04 :: be_bytes 32 5 ++ be_bytes 32 5)) (VNet livenet) = Err E_Pub_InvalidBinary.
Proof.
  split; [vm_compute; reflexivity|]. split; [unfold secp_on; vm_compute; discriminate|]. split; [vm_compute; reflexivity|].
  split; vm_compute; reflexivity.
Qed.

(** *** C21 *)
Theorem C21_accepts_exactly : forall b v k, pk_from_bytes (Str b) v = Ok k <->
  exists n x y cp, find v (txt "name") = Ok n /\ sec_reads b x y cp /\ k = PublicKey (x, y) n cp.
Proof. exact pk_from_bytes_iff. Qed.
Print Assumptions C21_accepts_exactly.

Theorem C21_from_hex : forall s v k, pk_from_hex s v = Ok k <-> exists b, decode_hex s = Ok b /\ pk_from_bytes (Str b) v = Ok k.
Proof. exact pk_from_hex_iff. Qed.
Print Assumptions C21_from_hex.

Theorem C21_bytearray : forall l v, pk_from_bytes (BA l) v = Err E_Pub_InvalidBinary.
Proof. exact pk_from_bytes_ba. Qed.
Print Assumptions C21_bytearray.

Theorem C21_non_residue : forall t xs rest v n, length xs = 32%nat -> t = x02 \/ t = x03 -> ~ is_square secp_p (be_val xs * be_val xs * be_val xs + 7) ->
  find v (txt "name") = Ok n -> pk_from_bytes (Str (t :: xs ++ rest)) v = Err E_Pub_InvalidPair.
Proof. exact pk_non_residue. Qed.
Print Assumptions C21_non_residue.

Theorem C21_trailing_ignored : forall b v k rest, pk_from_bytes (Str b) v = Ok k -> pk_from_bytes (Str (b ++ rest)) v = Ok k.
Proof. exact accepts_trailing. Qed.
Print Assumptions C21_trailing_ignored.

Theorem C21_length_refuted : ~ (forall b v k, pk_from_bytes (Str b) v = Ok k -> length b = 33%nat \/ length b = 65%nat).
Proof. exact length_not_checked. Qed.
Print Assumptions C21_length_refuted.

Theorem C21_range_refuted : ~ (forall b v k, pk_from_bytes (Str b) v = Ok k -> fst (pk_pair k) < secp_p).
Proof. exact range_not_checked. Qed.
Print Assumptions C21_range_refuted.

Theorem C21_one_point_two_keys_refuted : exists b b' k k', pk_from_bytes (Str b) (VNet livenet) = Ok k /\ pk_from_bytes (Str b') (VNet livenet) = Ok k' /\
  k <> k' /\ fst (pk_pair k) mod secp_p = fst (pk_pair k') mod secp_p /\ snd (pk_pair k) mod secp_p = snd (pk_pair k') mod secp_p /\ pk_compressed k = pk_compressed k'.
Proof. exact two_keys_one_point. Qed.
Print Assumptions C21_one_point_two_keys_refuted.

Example C21_ex : sec_reads (sec_G ++ [x07]) secp_gx secp_gy false /\
  pk_from_bytes (Str (sec_G ++ [x07])) (VNet livenet) = Ok (PublicKey (secp_gx, secp_gy) livenet false) /\
  pk_from_bytes (BA sec_G) (VNet livenet) = Err E_Pub_InvalidBinary.
Proof.
  split; [|split; vm_compute; reflexivity]. exists sec_G, [x07]. split; [reflexivity|]. split; [exact sec_G_of|].
  split; [vm_compute; reflexivity|discriminate].
Qed.

(** *** C36, the parts about public keys *)
Theorem C36_public_key_back : forall k sig s, p2pk_in_create k sig = Ok s -> usable_pub k -> get_public_key s = Ok (on_livenet k).
Proof. exact p2pk_in_key. Qed.
Print Assumptions C36_public_key_back.

Theorem C36_pay_to_pubkey_in_total : forall k sig, usable_pub k -> 1 <= blen sig <= 4294967295 -> exists s, p2pk_in_create k (Str sig) = Ok s.
Proof. exact p2pk_in_total. Qed.
Print Assumptions C36_pay_to_pubkey_in_total.

Theorem C36_public_keys_back : forall ks m s, multisig_create ks m = Ok s -> Forall usable_pub ks -> get_public_keys s = Ok (map on_livenet ks).
Proof. exact multisig_keys. Qed.
Print Assumptions C36_public_keys_back.

Theorem C36_multisig_total : forall ks m, Forall usable_pub ks -> 0 <= m <= 16 -> blen ks <= 16 -> exists s, multisig_create ks m = Ok s.
Proof. exact multisig_total. Qed.
Print Assumptions C36_multisig_total.

Example C36_ex_keys : usable_pub (PublicKey (secp_gx, secp_gy) testnet true) /\
  exists s, multisig_create [PublicKey (secp_gx, secp_gy) testnet true] 1 = Ok s /\
            get_public_keys s = Ok [PublicKey (secp_gx, secp_gy) livenet true].
Proof.
  assert (U : usable_pub (PublicKey (secp_gx, secp_gy) testnet true)).
  { split; [vm_compute; reflexivity|]. split; split; vm_compute; congruence. }
  assert (US : Forall usable_pub [PublicKey (secp_gx, secp_gy) testnet true]) by (constructor; [exact U|constructor]).
  split; [exact U|]. destruct (C36_multisig_total [PublicKey (secp_gx, secp_gy) testnet true] 1 US) as (s & E); [split; vm_compute; congruence|vm_compute; congruence|].
  exists s. split; [exact E|]. exact (C36_public_keys_back _ _ _ E US).
Qed.

(** *** C45, with the key derivation made explicit *)
Theorem C45_can_sign_exact : forall id n a q i k, address_input_create id n a q = Ok i -> valid_key k ->
  exists p h b, pk_from_private_key k = Ok p /\ key_hash p h /\ address_can_sign i [k] = Ok b /\ (b = true <-> h = pyb_bytes (a_phash a)).
Proof. exact address_can_sign_spec. Qed.
Print Assumptions C45_can_sign_exact.

Theorem C45_sign_total : forall sg i k p st, in_class_of i = C_AddressInput -> valid_key k -> 0 <= st <= 255 -> blen (sg 0%nat (k_secret k) p) < 4294967295 ->
  exists i', input_sign sg i [k] p st = Ok i'.
Proof. exact address_sign_total. Qed.
Print Assumptions C45_sign_total.

Theorem C45_sign_matches : forall sg id n a q i k p st i', address_input_create id n a q = Ok i -> valid_key k -> input_sign sg i [k] p st = Ok i' ->
  exists kb b, data_at (in_script i') 1 = Ok (Some (Str kb)) /\ address_can_sign i [k] = Ok b /\
    (b = true <-> ripemd160 (sha256 kb) = pyb_bytes (a_phash a)).
Proof. exact address_sign_matches. Qed.
Print Assumptions C45_sign_matches.

Example C45_ex_key : valid_key (PrivateKey 1 livenet true) /\
  exists i, address_input_create (zeros 32) 0 (Address (Str (ripemd160 (sha256 (x02 :: be_bytes 32 secp_gx)))) livenet T_PublicKey) 4294967295 = Ok i /\
            address_can_sign i [PrivateKey 1 livenet true] = Ok true /\ address_can_sign i [PrivateKey 2 livenet true] = Ok false.
Proof.
  split; [split; [split; vm_compute; congruence|vm_compute; tauto]|]. eexists. split; [vm_compute; reflexivity|]. split; vm_compute; reflexivity.
Qed.

(** *** C46 *)
Theorem C46_can_sign : forall id n ks m q i keys, multisig_input_create id n ks m q = Ok i -> Forall usable_pub ks ->
  Forall (fun k => pk_network k = livenet) ks -> Forall valid_key keys ->
  exists b, multisig_can_sign i keys = Ok b /\
    (b = true <-> blen keys = m /\ Forall (fun k => exists p, pk_from_private_key k = Ok p /\ In p ks) keys).
Proof. exact multisig_can_sign_livenet. Qed.
Print Assumptions C46_can_sign.

Theorem C46_can_sign_any_network : forall id n ks m q i keys, multisig_input_create id n ks m q = Ok i -> Forall usable_pub ks -> Forall valid_key keys ->
  exists b, multisig_can_sign i keys = Ok b /\
    (b = true <-> blen keys = m /\ Forall (fun k => exists p, pk_from_private_key k = Ok p /\ In p (map on_livenet ks)) keys).
Proof. exact multisig_can_sign_spec. Qed.
Print Assumptions C46_can_sign_any_network.

Theorem C46_testnet_key_never : forall id n ks m q i keys k, multisig_input_create id n ks m q = Ok i -> Forall usable_pub ks -> Forall valid_key keys ->
  In k keys -> k_network k = testnet -> multisig_can_sign i keys = Ok false.
Proof. exact multisig_testnet_never. Qed.
Print Assumptions C46_testnet_key_never.

Example C46_ex : let k := PrivateKey 1 livenet true in let p := PublicKey (secp_gx, secp_gy) livenet true in
  exists i, multisig_input_create (zeros 32) 0 [p] 1 4294967295 = Ok i /\ multisig_can_sign i [k] = Ok true /\
            multisig_can_sign i [PrivateKey 2 livenet true] = Ok false /\ multisig_can_sign i [k; k] = Ok false /\
            multisig_can_sign i [PrivateKey 1 testnet true] = Ok false.
Proof.
  intros k p.
  assert (U : Forall usable_pub [p]) by (constructor; [split; [vm_compute; reflexivity|]; split; split; vm_compute; congruence|constructor]).
  assert (N : Forall (fun k => pk_network k = livenet) [p]) by (constructor; [reflexivity|constructor]).
  assert (V : forall z n, 1 <= z <= 2 -> n = livenet \/ n = testnet -> valid_key (PrivateKey z n true)).
  { intros z n [Z1 Z2] K. split; [|exact K]. split; [apply (Z.lt_le_trans 0 1); [reflexivity|exact Z1]|apply (Z.le_lt_trans _ 2); [exact Z2|vm_compute; reflexivity]]. }
  assert (V1 : valid_key k) by (apply V; [split; vm_compute; congruence|left; reflexivity]).
  assert (V2 : valid_key (PrivateKey 2 livenet true)) by (apply V; [split; vm_compute; congruence|left; reflexivity]).
  assert (V3 : valid_key (PrivateKey 1 testnet true)) by (apply V; [split; vm_compute; congruence|right; reflexivity]).
  assert (P1 : pk_from_private_key k = Ok p) by (vm_compute; reflexivity).
  destruct (multisig_input_create (zeros 32) 0 [p] 1 4294967295) as [i|e] eqn:E; [|vm_compute in E; discriminate E].
  exists i. split; [reflexivity|]. split; [|split; [|split]].
  - destruct (C46_can_sign _ _ _ _ _ _ [k] E U N) as (b & B & I); [constructor; [exact V1|constructor]|]. rewrite B. f_equal. apply I.
    split; [reflexivity|]. constructor; [|constructor]. exists p. split; [exact P1|left; reflexivity].
  - destruct (C46_can_sign _ _ _ _ _ _ [PrivateKey 2 livenet true] E U N) as (b & B & I); [constructor; [exact V2|constructor]|].
    rewrite B. destruct b; [|reflexivity]. destruct (proj1 I eq_refl) as (_ & F). inversion F as [|? ? (q & Q & [<-|[]]) _]. vm_compute in Q. discriminate Q.
  - destruct (C46_can_sign _ _ _ _ _ _ [k; k] E U N) as (b & B & I); [constructor; [exact V1|constructor; [exact V1|constructor]]|].
    rewrite B. destruct b; [|reflexivity]. destruct (proj1 I eq_refl) as (F & _). discriminate F.
  - apply (C46_testnet_key_never _ _ _ _ _ _ _ (PrivateKey 1 testnet true) E U); [constructor; [exact V3|constructor]|left; reflexivity|reflexivity].
Qed.

(** *** C75 *)
Theorem C75_derivation : forall k, valid_key k -> exists x y,
  pk_from_private_key k = Ok (PublicKey (x, y) (k_network k) (k_compressed k)) /\
  multiple secp_p 0 (EA secp_gx secp_gy) (k_secret k) (EA x y) /\ secp_on x y /\ 0 <= x < secp_p /\ 0 <= y < secp_p.
Proof. exact public_key_of. Qed.
Print Assumptions C75_derivation.

Theorem C75_injective : forall k k' p p', valid_key k -> valid_key k' -> pk_from_private_key k = Ok p -> pk_from_private_key k' = Ok p' ->
  pk_pair p = pk_pair p' -> k_secret k = k_secret k'.
Proof. exact public_key_inj. Qed.
Print Assumptions C75_injective.

Theorem C75_serializes : forall k, valid_key k -> exists p, pk_from_private_key k = Ok p /\ usable_pub p /\
  pk_network p = k_network k /\ pk_compressed p = k_compressed k.
Proof. exact valid_key_usable. Qed.
Print Assumptions C75_serializes.

Theorem C75_address_of_public_key : forall k, usable_pub k -> known (pk_network k) -> exists h, key_hash k h /\
  addr_from_public_key k = Ok (Address (Str h) (pk_network k) T_PublicKey) /\ valid_addr (Address (Str h) (pk_network k) T_PublicKey).
Proof. exact addr_of_key. Qed.
Print Assumptions C75_address_of_public_key.

Theorem C75_address : forall k, valid_key k -> exists p h, pk_from_private_key k = Ok p /\ key_hash p h /\
  priv_to_address k = Ok (Address (Str h) (k_network k) T_PublicKey).
Proof. exact priv_address. Qed.
Print Assumptions C75_address.

Example C75_ex : let k := PrivateKey 2 testnet true in valid_key k /\
  pk_from_private_key k = Ok (PublicKey (0xc6047f9441ed7d6d3045406e95c07cd85c778e4b8cef3ca7abac09b95c709ee5,
                                         0x1ae168fea63dc339a3c58419466ceaeef7f632653266d0e1236431a950cfe52a) testnet true) /\
  pk_from_private_key (PrivateKey 1 testnet true) = Ok (PublicKey (secp_gx, secp_gy) testnet true).
Proof. split; [split; [split; vm_compute; congruence|vm_compute; tauto]|]. split; vm_compute; reflexivity. Qed.
