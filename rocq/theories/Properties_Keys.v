(** Property theorems C11-C17 and C27: networks, private keys, addresses, DER signatures. *)
From Coq Require Import String.
From Verif Require Import Base M_Hash M_Codec S_Codec P_Codec M_Keys S_Keys P_Keys.
Open Scope Z_scope.

(** *** C11 *)
Theorem C11_find_int : forall attr z n,
  find (VInt z) attr = Ok n <-> exists a, attr = txt a /\ network_number n a z.
Proof. exact find_int_iff. Qed.
Print Assumptions C11_find_int.

Theorem C11_find_name : forall attr t n, find (VText t) attr = Ok n <->
  attr = txt "name" /\ ((n = livenet /\ t = txt "livenet") \/ (n = testnet /\ t = txt "testnet")).
Proof. exact find_text_iff. Qed.
Print Assumptions C11_find_name.

Theorem C11_find_network_object : forall n attr, find (VNet n) attr = Ok n.
Proof. exact find_net. Qed.
Print Assumptions C11_find_network_object.

Theorem C11_only_unknown_network : forall v attr e, find v attr = Err e -> e = E_UnknownNetwork.
Proof. exact find_err. Qed.
Print Assumptions C11_only_unknown_network.

Theorem C11_find_quiet : forall v attr,
  find_opt v attr = match find v attr with Ok n => Some n | Err _ => None end.
Proof. exact find_opt_find. Qed.
Print Assumptions C11_find_quiet.

Theorem C11_unambiguous : forall n n' a z, network_number n a z -> network_number n' a z -> n = n'.
Proof. exact network_number_unambiguous. Qed.
Print Assumptions C11_unambiguous.

Theorem C11_address_types_disjoint : forall n n' z,
  network_number n "pubkeyhash" z -> network_number n' "scripthash" z -> False.
Proof. exact version_types_disjoint. Qed.
Print Assumptions C11_address_types_disjoint.

Example C11_ex : find (VInt 239) (txt "wif_prefix") = Ok testnet
  /\ find (VInt 5) (txt "scripthash") = Ok livenet
  /\ find (VInt 5) (txt "pubkeyhash") = Err E_UnknownNetwork
  /\ find (VInt 5) (txt "nonsense") = Err E_UnknownNetwork.
Proof. repeat split. Qed.

(** *** C12 *)
Theorem C12_constructor : forall s v c k, new_privkey s v c = Ok k <->
  exists n, find v (txt "name") = Ok n /\ 0 < s < curve_order /\ k = PrivateKey s n c.
Proof. exact new_privkey_ok. Qed.
Print Assumptions C12_constructor.

Theorem C12_constructor_errors : forall s v c e, new_privkey s v c = Err e ->
  (e = E_Priv_UnknownNetwork /\ find v (txt "name") = Err E_UnknownNetwork) \/
  (e = E_Priv_InvalidSecret /\ ~ 0 < s < curve_order).
Proof. exact new_privkey_err. Qed.
Print Assumptions C12_constructor_errors.

Theorem C12_from_bytes : forall b v c k, priv_from_bytes b v c = Ok k <->
  length b = 32%nat /\ exists n, find v (txt "name") = Ok n /\ 0 < be_val b < curve_order /\
  k = PrivateKey (be_val b) n c.
Proof. exact priv_from_bytes_ok. Qed.
Print Assumptions C12_from_bytes.

Theorem C12_from_bytes_errors : forall b v c e, priv_from_bytes b v c = Err e ->
  (e = E_Priv_InvalidBinaryLength /\ length b <> 32%nat) \/
  (e = E_Priv_UnknownNetwork /\ find v (txt "name") = Err E_UnknownNetwork) \/
  (e = E_Priv_InvalidSecret /\ length b = 32%nat /\ ~ 0 < be_val b < curve_order).
Proof. exact priv_from_bytes_err. Qed.
Print Assumptions C12_from_bytes_errors.

Theorem C12_from_hex_in_range : forall s v c k, priv_from_hex s v c = Ok k -> 0 < k_secret k < curve_order.
Proof. exact priv_hex_in_range. Qed.
Print Assumptions C12_from_hex_in_range.

Theorem C12_from_wif_in_range : forall s k, priv_from_wif s = Ok k -> 0 < k_secret k < curve_order.
Proof. exact (fun s k H => proj1 (proj1 (priv_wif_canonical s k H))). Qed.
Print Assumptions C12_from_wif_in_range.

Example C12_ex : new_privkey 7 (VText (txt "testnet")) false = Ok (PrivateKey 7 testnet false)
  /\ new_privkey 0 (VNet livenet) true = Err E_Priv_InvalidSecret
  /\ new_privkey curve_order (VNet livenet) true = Err E_Priv_InvalidSecret
  /\ new_privkey (curve_order - 1) (VNet livenet) true = Ok (PrivateKey (curve_order - 1) livenet true)
  /\ priv_from_bytes (zeros 32) (VNet livenet) true = Err E_Priv_InvalidSecret
  /\ priv_from_bytes [x01] (VNet livenet) true = Err E_Priv_InvalidBinaryLength.
Proof. repeat split; vm_compute; reflexivity. Qed.

(** *** C13 *)
Theorem C13_bytes_length : forall k, length (priv_to_bytes k) = 32%nat.
Proof. exact priv_to_bytes_length. Qed.
Print Assumptions C13_bytes_length.

Theorem C13_bytes_value : forall k, 0 < k_secret k < curve_order -> be_val (priv_to_bytes k) = k_secret k.
Proof. exact priv_to_bytes_val. Qed.
Print Assumptions C13_bytes_value.

Theorem C13_bytes_roundtrip : forall k, 0 < k_secret k < curve_order ->
  priv_from_bytes (priv_to_bytes k) (VNet (k_network k)) (k_compressed k) = Ok k.
Proof. exact priv_bytes_roundtrip. Qed.
Print Assumptions C13_bytes_roundtrip.

Theorem C13_hex_roundtrip : forall k, 0 < k_secret k < curve_order ->
  priv_from_hex (priv_to_hex k) (VNet (k_network k)) (k_compressed k) = Ok k.
Proof. exact priv_hex_roundtrip. Qed.
Print Assumptions C13_hex_roundtrip.

Theorem C13_bytes_back : forall b v c k,
  priv_from_bytes b v c = Ok k -> priv_to_bytes k = b /\ k_compressed k = c.
Proof. exact priv_from_bytes_back. Qed.
Print Assumptions C13_bytes_back.

Example C13_ex : let k := PrivateKey 66051 livenet true in
  priv_to_bytes k = zeros 29 ++ [x01; x02; x03]
  /\ priv_from_hex (priv_to_hex k) (VNet livenet) true = Ok k.
Proof. split; vm_compute; reflexivity. Qed.

(** *** C14 *)
Theorem C14_wif_roundtrip : forall k, valid_key k ->
  exists s, priv_to_wif k = Ok s /\ priv_from_wif s = Ok k.
Proof. exact priv_wif_roundtrip. Qed.
Print Assumptions C14_wif_roundtrip.

Theorem C14_wif_payload : forall k, valid_key k ->
  exists p, wif_payload (k_network k) (priv_to_bytes k) (k_compressed k) p /\
            priv_to_wif k = encode_base58h (Str p).
Proof. exact priv_to_wif_payload. Qed.
Print Assumptions C14_wif_payload.

Example C14_ex : let k := PrivateKey 1 livenet true in
  valid_key k
  /\ priv_to_wif k = Ok (txt "KwDiBf89QgGbjEhKnhXJuH7LrciVrZi3qYjgd9M7rFU73sVHnoWn").
Proof. split; [split; [split; reflexivity|left; reflexivity]|vm_compute; reflexivity]. Qed.

(** *** C15 *)
Theorem C15_wif_exact : forall s k, priv_from_wif s = Ok k <-> valid_key k /\ priv_to_wif k = Ok s.
Proof. exact priv_from_wif_iff. Qed.
Print Assumptions C15_wif_exact.

Theorem C15_wif_errors : forall s,
  (forall e, decode_base58h s = Err e ->
     priv_from_wif s = Err (if all_ascii s then E_Priv_InvalidBase58h else E_UnicodeDecodeError)) /\
  (forall p, decode_base58h s = Ok p ->
     (length p <> 33%nat -> length p <> 34%nat -> priv_from_wif s = Err E_Priv_InvalidWifLength) /\
     (length p = 34%nat -> last p x00 <> x01 -> priv_from_wif s = Err E_Priv_InvalidCompressionByte) /\
     (forall v sec (c : bool), p = v :: sec ++ (if c then [x01] else []) -> length sec = 32%nat ->
        ((forall n, ~ network_number n "wif_prefix" (bZ v)) -> priv_from_wif s = Err E_Priv_UnknownNetwork) /\
        (forall n, network_number n "wif_prefix" (bZ v) -> ~ 0 < be_val sec < curve_order ->
           priv_from_wif s = Err E_Priv_InvalidSecret))).
Proof. exact priv_from_wif_errors. Qed.
Print Assumptions C15_wif_errors.

Theorem C15_wif_contained : forall s e, all_ascii s = true -> priv_from_wif s = Err e ->
  In e [E_Priv_InvalidBase58h; E_Priv_InvalidWifLength; E_Priv_InvalidCompressionByte;
        E_Priv_UnknownNetwork; E_Priv_InvalidSecret].
Proof. exact priv_from_wif_contained. Qed.
Print Assumptions C15_wif_contained.

(** Without the ASCII restriction containment is false. *)
Theorem C15_wif_contained_refuted : ~ (forall s e, priv_from_wif s = Err e ->
  In e [E_Priv_InvalidBase58h; E_Priv_InvalidWifLength; E_Priv_InvalidCompressionByte;
        E_Priv_UnknownNetwork; E_Priv_InvalidSecret]).
Proof.
  exact (fun H => ltac:(destruct (H [xff] E_UnicodeDecodeError eq_refl) as
    [X|[X|[X|[X|[X|[]]]]]]; discriminate X)).
Qed.
Print Assumptions C15_wif_contained_refuted.

Example C15_ex :
  priv_from_wif (txt "KwDiBf89QgGbjEhKnhXJuH7LrciVrZi3qYjgd9M7rFU73sVHnoWn") = Ok (PrivateKey 1 livenet true)
  /\ priv_from_wif (txt "KwDiBf89QgGbjEhKnhXJuH7LrciVrZi3qYjgd9M7rFU73sVHnoWm") = Err E_Priv_InvalidBase58h
  /\ priv_from_wif (txt "1111111111111111111114oLvT2") = Err E_Priv_InvalidWifLength.
Proof. repeat split; vm_compute; reflexivity. Qed.

(** *** C16 *)
Theorem C16_string_roundtrip : forall a, valid_addr a ->
  exists s, addr_to_string a = Ok s /\ addr_from_string s = Ok a.
Proof. exact addr_string_roundtrip. Qed.
Print Assumptions C16_string_roundtrip.

Theorem C16_bytes_roundtrip : forall a, valid_addr a ->
  exists p, addr_to_bytes a = Ok p /\ addr_from_bytes p = Ok a.
Proof. exact addr_bytes_roundtrip. Qed.
Print Assumptions C16_bytes_roundtrip.

Theorem C16_hex_roundtrip : forall a, valid_addr a ->
  exists s, addr_to_hex a = Ok s /\ addr_from_hex s = Ok a.
Proof. exact addr_hex_roundtrip. Qed.
Print Assumptions C16_hex_roundtrip.

Theorem C16_payload : forall a, valid_addr a -> exists h p,
  a_phash a = Str h /\ addr_payload (a_network a) (a_type a) h p /\ addr_to_bytes a = Ok (Str p).
Proof. exact addr_to_bytes_payload. Qed.
Print Assumptions C16_payload.

Theorem C16_strings_injective : forall a b s, valid_addr a -> valid_addr b ->
  addr_to_string a = Ok s -> addr_to_string b = Ok s -> a = b.
Proof. exact addr_string_injective. Qed.
Print Assumptions C16_strings_injective.

Theorem C16_constructor : forall ph v ty a, new_address ph v ty = Ok a <->
  exists n t, find v (txt "name") = Ok n /\ ty = TA t /\ length (pyb_bytes ph) = 20%nat /\ a = Address ph n t.
Proof. exact new_address_ok. Qed.
Print Assumptions C16_constructor.

(** Addresses holding a bytearray hash have no text form. *)
Theorem C16_bytearray_has_no_text : forall n t h, known n -> length h = 20%nat ->
  exists e, addr_to_string (Address (BA h) n t) = Err e.
Proof. exact addr_to_string_bytearray. Qed.
Print Assumptions C16_bytearray_has_no_text.

Example C16_ex : let a := Address (Str (zeros 20)) livenet T_PublicKey in
  valid_addr a /\ addr_to_string a = Ok (txt "1111111111111111111114oLvT2").
Proof. split; [split; [left; reflexivity|exists (zeros 20); auto]|vm_compute; reflexivity]. Qed.

(** *** C17 *)
Theorem C17_string_exact : forall s a, addr_from_string s = Ok a <-> valid_addr a /\ addr_to_string a = Ok s.
Proof. exact addr_string_iff. Qed.
Print Assumptions C17_string_exact.

Theorem C17_string_errors : forall s e, addr_from_string s = Err e ->
  (e = E_Addr_InvalidBase58h /\ all_ascii s = true) \/ (e = E_UnicodeDecodeError /\ all_ascii s = false) \/
  e = E_Addr_InvalidBinaryLength \/ e = E_Addr_InvalidVersion.
Proof. exact addr_from_string_err. Qed.
Print Assumptions C17_string_errors.

Theorem C17_string_contained_refuted : ~ (forall s e, addr_from_string s = Err e ->
  In e [E_Addr_InvalidBase58h; E_Addr_InvalidBinaryLength; E_Addr_InvalidVersion]).
Proof.
  exact (fun H => ltac:(destruct (H [xff] E_UnicodeDecodeError eq_refl) as [X|[X|[X|[]]]]; discriminate X)).
Qed.
Print Assumptions C17_string_contained_refuted.

Theorem C17_bytes_accepts : forall p, (exists a, addr_from_bytes p = Ok a) <->
  length (pyb_bytes p) = 21%nat /\ In (hd x00 (pyb_bytes p)) [x00; x05; x6f; xc4].
Proof. exact addr_from_bytes_accepts. Qed.
Print Assumptions C17_bytes_accepts.

Theorem C17_bytes_value : forall p a, addr_from_bytes p = Ok a <->
  exists h, addr_payload (a_network a) (a_type a) h (pyb_bytes p) /\
            a_phash a = match p with Str _ => Str h | BA _ => BA h end.
Proof. exact addr_from_bytes_ok. Qed.
Print Assumptions C17_bytes_value.

Theorem C17_bytes_errors : forall p e, addr_from_bytes p = Err e ->
  (e = E_Addr_InvalidBinaryLength /\ length (pyb_bytes p) <> 21%nat) \/
  (e = E_Addr_InvalidVersion /\ length (pyb_bytes p) = 21%nat /\
     ~ In (hd x00 (pyb_bytes p)) [x00; x05; x6f; xc4]).
Proof. exact addr_from_bytes_err. Qed.
Print Assumptions C17_bytes_errors.

Example C17_ex :
  addr_from_string (txt "1111111111111111111114oLvT2") = Ok (Address (Str (zeros 20)) livenet T_PublicKey)
  /\ addr_from_string (txt "1111111111111111111114oLvT3") = Err E_Addr_InvalidBase58h
  /\ addr_from_bytes (Str (x07 :: zeros 20)) = Err E_Addr_InvalidVersion
  /\ addr_from_bytes (BA (xc4 :: zeros 20)) = Ok (Address (BA (zeros 20)) testnet T_Script).
Proof. repeat split; vm_compute; reflexivity. Qed.

(** *** C27 *)
Theorem C27_accepts_exactly_bip66 : forall s, validate_signature (Str s) = Ok true <-> bip66 s.
Proof. exact validate_signature_iff. Qed.
Print Assumptions C27_accepts_exactly_bip66.

Theorem C27_never_raises : forall s, exists b, validate_signature (Str s) = Ok b.
Proof. exact validate_signature_total. Qed.
Print Assumptions C27_never_raises.

Theorem C27_bytearray_raises : forall b l, validate_signature (BA (b :: l)) = Err E_TypeError.
Proof. exact validate_signature_ba. Qed.
Print Assumptions C27_bytearray_raises.

Example C27_ex :
  validate_signature (Str [x30; x07; x02; x02; x00; x80; x02; x01; x05; x01]) = Ok true
  /\ validate_signature (Str [x30; x07; x02; x02; x00; x7f; x02; x01; x05; x01]) = Ok false
  /\ validate_signature (Str [x30; x06; x02; x01; x81; x02; x01; x05; x01]) = Ok false.
Proof. repeat split. Qed.
