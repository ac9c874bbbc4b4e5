(** Property theorems C86-C88: the helpers of bitforge/utils. *)
From Coq Require Import ZArith List String.
From Verif Require Import Base M_Keys M_EC M_HD M_Utils S_Codec S_Keys S_EC S_HD S_Utils P_Utils.
Import ListNotations.
Open Scope Z_scope.

(** *** C86 *)
Theorem C86_base58check_valid : forall t, (is_hashed_base58_valid t = Ok true <-> exists b, check_text b t) /\
  (is_hashed_base58_valid t = Ok false <-> no_check_text t /\ ascii_text t) /\
  (forall e, is_hashed_base58_valid t = Err e <-> e = E_UnicodeDecodeError /\ ~ ascii_text t).
Proof. exact hashed_valid. Qed.
Print Assumptions C86_base58check_valid.

Theorem C86_writes : forall d c p, 0 <= d < 2 ^ 256 -> exists t b, secret_exponent_to_wif d c p = Ok t /\ wif_body p d c b /\ check_text b t.
Proof. exact to_wif_ok. Qed.
Print Assumptions C86_writes.

Theorem C86_write_error : forall d c p e, secret_exponent_to_wif d c p = Err e <-> e = E_ValueError /\ 2 ^ 256 <= d.
Proof. exact to_wif_err. Qed.
Print Assumptions C86_write_error.

Theorem C86_negative : forall d c p, d < 0 -> secret_exponent_to_wif d c p = secret_exponent_to_wif 0 c p.
Proof. exact to_wif_negative. Qed.
Print Assumptions C86_negative.

Theorem C86_reads : forall t p d c, wif_to_tuple t = Ok (p, d, c) <-> exists b, wif_loose p d c b /\ check_text b t.
Proof. exact wif_read. Qed.
Print Assumptions C86_reads.

Theorem C86_read_error : forall t e, wif_to_tuple t = Err e <->
  (exists b, check_text b t /\ (length b < 33)%nat /\ e = E_ValueError) \/
  no_check_text t /\ (e = E_UtilsEncodingError /\ ascii_text t \/ e = E_UnicodeDecodeError /\ ~ ascii_text t).
Proof. exact wif_read_err. Qed.
Print Assumptions C86_read_error.

Theorem C86_roundtrip : forall v d c, 0 <= d < 2 ^ 256 -> exists t, secret_exponent_to_wif d c [v] = Ok t /\ wif_to_tuple t = Ok ([v], d, c).
Proof. exact wif_roundtrip. Qed.
Print Assumptions C86_roundtrip.

Theorem C86_secret : forall t ps d, wif_to_secret_exponent t ps = Ok d <-> exists p c b, wif_loose p d c b /\ check_text b t /\ In p ps.
Proof. exact wif_secret. Qed.
Print Assumptions C86_secret.

Theorem C86_secret_compressed : forall t ps d c, wif_to_secret_compressed t ps = Ok (d, c) <-> exists p b, wif_loose p d c b /\ check_text b t /\ In p ps.
Proof. exact wif_secret_compressed. Qed.
Print Assumptions C86_secret_compressed.

Theorem C86_valid : forall t ps, is_valid_wif t ps = Ok true <-> exists p d c b, wif_loose p d c b /\ check_text b t /\ In p ps.
Proof. exact wif_valid. Qed.
Print Assumptions C86_valid.

Theorem C86_invalid : forall t ps, is_valid_wif t ps = Ok false <->
  (exists p d c b, wif_loose p d c b /\ check_text b t /\ ~ In p ps) \/ no_check_text t /\ ascii_text t.
Proof. exact wif_invalid. Qed.
Print Assumptions C86_invalid.

Theorem C86_valid_raises : forall t ps e, is_valid_wif t ps = Err e <->
  (exists b, check_text b t /\ (length b < 33)%nat /\ e = E_ValueError) \/ e = E_UnicodeDecodeError /\ ~ ascii_text t.
Proof. exact wif_valid_err. Qed.
Print Assumptions C86_valid_raises.

Theorem C86_class_writes : forall k v, valid_key k -> network_number (k_network k) "wif_prefix" (bZ v) ->
  secret_exponent_to_wif (k_secret k) (k_compressed k) [v] = priv_to_wif k.
Proof. exact class_wif. Qed.
Print Assumptions C86_class_writes.

Theorem C86_class_reads : forall t k, priv_from_wif t = Ok k -> exists v, network_number (k_network k) "wif_prefix" (bZ v) /\ wif_to_tuple t = Ok ([v], k_secret k, k_compressed k).
Proof. exact class_wif_read. Qed.
Print Assumptions C86_class_reads.

Theorem C86_class_reads_exact : forall t k v, network_number (k_network k) "wif_prefix" (bZ v) ->
  (priv_from_wif t = Ok k <-> 0 < k_secret k < curve_order /\ exists b, wif_body [v] (k_secret k) (k_compressed k) b /\ check_text b t).
Proof. exact class_wif_iff. Qed.
Print Assumptions C86_class_reads_exact.

Theorem C86_injective_refuted : ~ (forall d d' c p t, secret_exponent_to_wif d c p = Ok t -> secret_exponent_to_wif d' c p = Ok t -> d = d').
Proof. exact to_wif_not_injective. Qed.
Print Assumptions C86_injective_refuted.

Theorem C86_total_refuted : ~ (forall t ps, ascii_text t -> exists b, is_valid_wif t ps = Ok b).
Proof. exact wif_valid_not_total. Qed.
Print Assumptions C86_total_refuted.

Theorem C86_canonical_refuted : ~ (forall t t' p d c, wif_to_tuple t = Ok (p, d, c) -> wif_to_tuple t' = Ok (p, d, c) -> t = t').
Proof. exact wif_not_canonical. Qed.
Print Assumptions C86_canonical_refuted.

Theorem C86_valid_is_key_refuted : ~ (forall t, is_valid_wif t [[x80]] = Ok true -> exists k, priv_from_wif t = Ok k).
Proof. exact wif_valid_not_key. Qed.
Print Assumptions C86_valid_is_key_refuted.

Example C86_ex : exists t, secret_exponent_to_wif 5 true [x80] = Ok t /\ wif_to_tuple t = Ok ([x80], 5, true) /\ is_valid_wif t [[x80]] = Ok true /\
  is_valid_wif t [[xef]] = Ok false /\ priv_to_wif (PrivateKey 5 livenet true) = Ok t.
Proof. exact utils_example_wif. Qed.

(** *** C87 *)
Theorem C87_writes : forall h p, exists t, hash160_sec_to_bitcoin_address h p = Ok t /\ check_text (p ++ h) t.
Proof. exact to_address. Qed.
Print Assumptions C87_writes.

Theorem C87_reads : forall t h p, address_to_hash160_prefix t = Ok (h, p) <->
  exists v, p = [v] /\ (v = x00 \/ v = x6f) /\ exists b, address_body v h b /\ check_text b t.
Proof. exact address_read. Qed.
Print Assumptions C87_reads.

Theorem C87_read_error : forall t e, address_to_hash160_prefix t = Err e <->
  (exists b, check_text b t /\ (length b <> 21%nat /\ e = E_UtilsEncodingError \/
     exists v h, address_body v h b /\ v <> x00 /\ v <> x6f /\ (bZ v < 128 /\ e = E_UtilsEncodingError \/ 128 <= bZ v /\ e = E_UnicodeDecodeError))) \/
  no_check_text t /\ (e = E_UtilsEncodingError /\ ascii_text t \/ e = E_UnicodeDecodeError /\ ~ ascii_text t).
Proof. exact address_read_err. Qed.
Print Assumptions C87_read_error.

Theorem C87_roundtrip : forall v h, length h = 20%nat -> v = x00 \/ v = x6f -> exists t, hash160_sec_to_bitcoin_address h [v] = Ok t /\
  address_to_hash160_prefix t = Ok (h, [v]) /\ address_to_hash160 t [v] = Ok h.
Proof. exact address_roundtrip. Qed.
Print Assumptions C87_roundtrip.

Theorem C87_hash : forall t p h, address_to_hash160 t p = Ok h <->
  exists v, p = [v] /\ (v = x00 \/ v = x6f) /\ exists b, address_body v h b /\ check_text b t.
Proof. exact address_hash. Qed.
Print Assumptions C87_hash.

Theorem C87_hash_error : forall t p e, address_to_hash160 t p = Err e <-> address_to_hash160_prefix t = Err e \/
  e = E_UtilsEncodingError /\ exists v h b, p <> [v] /\ (v = x00 \/ v = x6f) /\ address_body v h b /\ check_text b t.
Proof. exact address_hash_err. Qed.
Print Assumptions C87_hash_error.

Theorem C87_valid : forall t ps, is_valid_bitcoin_address t ps = Ok true <->
  exists v h b, (v = x00 \/ v = x6f) /\ In v ps /\ address_body v h b /\ check_text b t.
Proof. exact address_valid. Qed.
Print Assumptions C87_valid.

Theorem C87_invalid : forall t ps, is_valid_bitcoin_address t ps = Ok false <-> ascii_text t /\
  (forall v h b, address_body v h b -> check_text b t -> bZ v < 128 /\ ((v = x00 \/ v = x6f) -> ~ In v ps)).
Proof. exact address_invalid. Qed.
Print Assumptions C87_invalid.

Theorem C87_valid_raises : forall t ps e, is_valid_bitcoin_address t ps = Err e <-> e = E_UnicodeDecodeError /\
  (~ ascii_text t \/ exists v h b, address_body v h b /\ check_text b t /\ 128 <= bZ v).
Proof. exact address_valid_err. Qed.
Print Assumptions C87_valid_raises.

Theorem C87_testnet_script : forall h t ps, length h = 20%nat -> check_text (xc4 :: h) t -> is_valid_bitcoin_address t ps = Err E_UnicodeDecodeError.
Proof. exact address_valid_p2sh. Qed.
Print Assumptions C87_testnet_script.

Theorem C87_class_writes : forall a h v, valid_addr a -> a_type a = T_PublicKey -> a_phash a = Str h -> network_number (a_network a) "pubkeyhash" (bZ v) ->
  hash160_sec_to_bitcoin_address h [v] = addr_to_string a.
Proof. exact class_address. Qed.
Print Assumptions C87_class_writes.

Theorem C87_class_reads : forall t, is_valid_bitcoin_address t [x00; x6f] = Ok true <-> exists a, addr_from_string t = Ok a /\ a_type a = T_PublicKey.
Proof. exact class_address_iff. Qed.
Print Assumptions C87_class_reads.

Theorem C87_class_public_key : forall k v, usable_pub k -> known (pk_network k) -> network_number (pk_network k) "pubkeyhash" (bZ v) ->
  exists a, addr_from_public_key k = Ok a /\ public_pair_to_bitcoin_address (pk_pair k) (pk_compressed k) [v] = addr_to_string a.
Proof. exact class_public_key. Qed.
Print Assumptions C87_class_public_key.

Theorem C87_total_refuted : ~ (forall t ps, ascii_text t -> exists b, is_valid_bitcoin_address t ps = Ok b).
Proof. exact address_valid_not_total. Qed.
Print Assumptions C87_total_refuted.

(** a testnet key address, a livenet script address, a testnet script address *)
Example C87_ex : exists t t' t'', hash160_sec_to_bitcoin_address (zeros 20) [x6f] = Ok t /\ is_valid_bitcoin_address t [x00; x6f] = Ok true /\
  is_valid_bitcoin_address t [x00] = Ok false /\ check_text (x05 :: zeros 20) t' /\ is_valid_bitcoin_address t' [x00; x6f] = Ok false /\
  check_text (xc4 :: zeros 20) t'' /\ is_valid_bitcoin_address t'' [x00; x6f] = Err E_UnicodeDecodeError.
Proof. exact utils_example_address. Qed.

(** *** C88 *)
Theorem C88_encode : forall v (k : nat) big, length (ib_encode v (Z.of_nat k) big) = k /\ denotes_int big (ib_encode v (Z.of_nat k) big) (v mod 256 ^ Z.of_nat k).
Proof. exact int_encode. Qed.
Print Assumptions C88_encode.

Theorem C88_negative_length : forall v n big, n < 0 -> ib_encode v n big = [].
Proof. exact int_encode_negative_length. Qed.
Print Assumptions C88_negative_length.

Theorem C88_decode : forall s big v, ib_decode s big false = Ok v <-> denotes_int big s v.
Proof. exact int_decode. Qed.
Print Assumptions C88_decode.

Theorem C88_roundtrip : forall v (k : nat) big, 0 <= v < 256 ^ Z.of_nat k -> ib_decode (ib_encode v (Z.of_nat k) big) big false = Ok v.
Proof. exact int_roundtrip. Qed.
Print Assumptions C88_roundtrip.

Theorem C88_bytes_roundtrip : forall s big v, ib_decode s big false = Ok v -> ib_encode v (blen s) big = s.
Proof. exact int_bytes_roundtrip. Qed.
Print Assumptions C88_bytes_roundtrip.

Theorem C88_signed_raises : forall s big, exists e, ib_decode s big true = Err e /\
  ((e = E_IndexError /\ s = [] /\ big = true) \/ (e = E_TypeError /\ ~ (s = [] /\ big = true))).
Proof. exact int_decode_signed. Qed.
Print Assumptions C88_signed_raises.

Theorem C88_signed_refuted : ~ (exists s big v, ib_decode s big true = Ok v).
Proof. exact int_signed_unusable. Qed.
Print Assumptions C88_signed_refuted.

Theorem C88_minimal : forall v, 0 <= v -> be_val (int_to_bytes v) = v /\ minimal (int_to_bytes v).
Proof. exact int_min. Qed.
Print Assumptions C88_minimal.

Theorem C88_shortest : forall v l, 0 <= v -> be_val l = v -> (length (int_to_bytes v) <= length l)%nat.
Proof. exact int_min_shortest. Qed.
Print Assumptions C88_shortest.

Theorem C88_minimal_unique : forall v l, 0 <= v -> be_val l = v -> minimal l -> l = int_to_bytes v.
Proof. exact int_min_unique. Qed.
Print Assumptions C88_minimal_unique.

Theorem C88_nonpositive : forall v, v <= 0 -> int_to_bytes v = [].
Proof. exact int_min_nonpos. Qed.
Print Assumptions C88_nonpositive.

Theorem C88_minimal_roundtrip : forall v, 0 <= v -> int_from_bytes (int_to_bytes v) = v.
Proof. exact int_min_roundtrip. Qed.
Print Assumptions C88_minimal_roundtrip.

Theorem C88_leading_zeros : forall s, exists k, s = zeros k ++ int_to_bytes (int_from_bytes s).
Proof. exact int_min_strip. Qed.
Print Assumptions C88_leading_zeros.

Example C88_ex : ib_encode 258 4 true = [x00; x00; x01; x02] /\ ib_encode (-2) 2 false = [xfe; xff] /\ ib_decode [x02; x01] false false = Ok 258 /\
  int_to_bytes 258 = [x01; x02] /\ int_from_bytes [x00; x01; x02] = 258 /\ ib_decode [x80] true true = Err E_TypeError.
Proof. repeat split. Qed.
