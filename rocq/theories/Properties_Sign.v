(** Property theorems C89-C94: PrivateKey.sign and verify, and what a signed input satisfies. *)
From Coq Require Import ZArith List.
From Verif Require Import Base M_Hash M_Keys S_Codec S_Keys M_EC S_EC M_Script S_Script M_Tx S_Tx P_PubTx M_Sign S_Sign P_Sign P_SignTx.
Import ListNotations.
Open Scope Z_scope.

(** *** C89 *)
Theorem C89_outcome : forall k x y nonce m, public_point (k_secret k) x y -> x < curve_order -> y < curve_order -> 0 < nonce < curve_order ->
  1 <= blen m <= 32 ->
  exists r yr, public_point nonce r yr /\ 1 <= r < secp_p /\
    (((be_val m + k_secret k * r) mod curve_order <> 0 /\ exists s b, priv_sign k nonce m = SOk b /\ der_sig r s b /\ blen b <= 72 /\
        1 <= s <= (curve_order - 1) / 2 /\ ((s * nonce) mod curve_order = (be_val m + k_secret k * r) mod curve_order \/
                                            (s * nonce) mod curve_order = (- (be_val m + k_secret k * r)) mod curve_order) /\
        (r < curve_order -> secp_valid x y (be_val m) r s)) \/
     ((be_val m + k_secret k * r) mod curve_order = 0 /\ priv_sign k nonce m = SErr (SX E_RuntimeError))).
Proof. exact sign_outcome. Qed.
Print Assumptions C89_outcome.

Theorem C89_strict : forall k nonce m b h, 0 < nonce < curve_order -> priv_sign k nonce m = SOk b -> bip66 (b ++ [h]).
Proof. exact sign_bip66. Qed.
Print Assumptions C89_strict.

Theorem C89_long : forall k x y nonce m, public_point (k_secret k) x y -> x < curve_order -> y < curve_order -> 32 < blen m ->
  priv_sign k nonce m = SErr BadDigestError.
Proof. exact sign_long. Qed.
Print Assumptions C89_long.

Theorem C89_empty : forall k x y nonce, public_point (k_secret k) x y -> x < curve_order -> y < curve_order ->
  priv_sign k nonce [] = SErr (SX E_ValueError).
Proof. exact sign_empty. Qed.
Print Assumptions C89_empty.

Theorem C89_secret_range : forall k nonce m, ~ 0 < k_secret k < curve_order -> priv_sign k nonce m = SErr (SX E_AssertionError).
Proof. exact sign_secret_range. Qed.
Print Assumptions C89_secret_range.

Theorem C89_point_range : forall k x y nonce m, public_point (k_secret k) x y -> ~ (x < curve_order /\ y < curve_order) ->
  priv_sign k nonce m = SErr (SX E_RuntimeError).
Proof. exact sign_point_range. Qed.
Print Assumptions C89_point_range.

(** key 2 signs 32 zero bytes; the key 1 does not accept it *)
Example C89_ex : exists b, priv_sign w_k2 1 (zeros 32) = SOk b /\ bip66 (b ++ [x01]) /\ accepts (zeros 32) 1 twice_x twice_y (b ++ [x01]) /\
  ~ accepts (zeros 32) 1 secp_gx secp_gy (b ++ [x01]).
Proof. exact ex_sign. Qed.

(** *** C90 *)
Theorem C90_encodes : forall r s, 0 <= r < 2 ^ 256 -> 0 <= s < 2 ^ 256 -> der_sig r s (sigencode_der r s) /\ 8 <= blen (sigencode_der r s) <= 72.
Proof. exact sigencode_ok. Qed.
Print Assumptions C90_encodes.

Theorem C90_unique : forall r s b b', der_sig r s b -> der_sig r s b' -> b = b'.
Proof. exact der_sig_unique. Qed.
Print Assumptions C90_unique.

Theorem C90_strict : forall r s b h, der_sig r s b -> r < 2 ^ 256 -> s < 2 ^ 256 -> bip66 (b ++ [h]).
Proof. exact der_sig_bip66. Qed.
Print Assumptions C90_strict.

Theorem C90_decodes : forall b r s, sigdecode_der b = SOk (r, s) <-> lax_sig r s b.
Proof. exact sigdecode_ok. Qed.
Print Assumptions C90_decodes.

Theorem C90_decodes_der : forall r s b, der_sig r s b -> lax_sig r s b.
Proof. exact der_lax. Qed.
Print Assumptions C90_decodes_der.

Theorem C90_roundtrip : forall r s, 0 <= r < 2 ^ 256 -> 0 <= s < 2 ^ 256 -> sigdecode_der (sigencode_der r s) = SOk (r, s).
Proof. exact der_roundtrip. Qed.
Print Assumptions C90_roundtrip.

Theorem C90_canonical_refuted : ~ (forall b r s, sigdecode_der b = SOk (r, s) -> der_sig r s b).
Proof. exact der_decode_lax. Qed.
Print Assumptions C90_canonical_refuted.

Example C90_ex : sigencode_der 1 255 = [x30; x07; x02; x01; x01; x02; x02; x00; xff] /\ sigdecode_der [x30; x07; x02; x01; x01; x02; x02; x00; xff] = SOk (1, 255) /\
  sigdecode_der [x30; x7f; x02; x01; x01; x02; x20; x01] = SOk (1, 1) /\ sigdecode_der [x30; x81; x06; x02; x01; x01; x02; x01; x05] = SOk (1, 5) /\
  sigdecode_der [x30; x06; x02; x01; x01; x02; x01; x80] = SErr (SX E_AssertionError) /\ sigdecode_der [x30; x06; x02; x01; x01; x02; x01; x01; x01] = SErr UnexpectedDER.
Proof. split; [|split; [|split; [|split; [|split]]]]; reflexivity. Qed.

(** *** C91 *)
Theorem C91_exact : forall k x y sg m, public_point (k_secret k) x y -> x < curve_order -> y < curve_order ->
  (priv_verify k sg m = SOk true <-> exists r s, lax_sig r s sg /\ secp_valid x y (be_val (sha1 m)) r s).
Proof. exact verify_spec. Qed.
Print Assumptions C91_exact.

Theorem C91_true_or_raises : forall k sg m, priv_verify k sg m = SOk true \/ exists e, priv_verify k sg m = SErr e.
Proof. exact verify_true_or_raises. Qed.
Print Assumptions C91_true_or_raises.

Theorem C91_bad_signature : forall k x y sg m r s, public_point (k_secret k) x y -> x < curve_order -> y < curve_order -> lax_sig r s sg ->
  ~ secp_valid x y (be_val (sha1 m)) r s ->
  ~ (1 <= r < curve_order /\ 1 <= s < curve_order /\ (be_val (sha1 m) + r * k_secret k) mod curve_order = 0) -> priv_verify k sg m = SErr BadSignatureError.
Proof. exact verify_bad_signature. Qed.
Print Assumptions C91_bad_signature.

Theorem C91_infinite : forall k x y sg m r s, public_point (k_secret k) x y -> x < curve_order -> y < curve_order -> lax_sig r s sg ->
  1 <= r < curve_order -> 1 <= s < curve_order -> (be_val (sha1 m) + r * k_secret k) mod curve_order = 0 -> priv_verify k sg m = SErr (SX E_TypeError).
Proof. exact verify_type_error. Qed.
Print Assumptions C91_infinite.

Theorem C91_key_range : forall k sg m, ~ (exists x y, public_point (k_secret k) x y /\ x < curve_order /\ y < curve_order) ->
  priv_verify k sg m = SErr (SX E_AssertionError) \/ priv_verify k sg m = SErr (SX E_RuntimeError).
Proof. exact verify_key. Qed.
Print Assumptions C91_key_range.

Theorem C91_malleable : forall k x y m r s b b', public_point (k_secret k) x y -> x < curve_order -> y < curve_order -> lax_sig r s b -> lax_sig r (curve_order - s) b' ->
  (priv_verify k b m = SOk true <-> priv_verify k b' m = SOk true).
Proof. exact verify_mirror. Qed.
Print Assumptions C91_malleable.

Example C91_ex : public_point 1 secp_gx secp_gy /\ secp_gx < curve_order /\ secp_gy < curve_order /\ public_point 2 twice_x twice_y /\ twice_x < curve_order /\ twice_y < curve_order.
Proof. split; [exact pp_one|]. split; [reflexivity|]. split; [reflexivity|]. split; [exact pp_two|]. split; reflexivity. Qed.

(** *** C92 *)
Theorem C92_hashed_first : forall k x y nonce m b, public_point (k_secret k) x y -> x < curve_order -> y < curve_order -> 0 < nonce < curve_order ->
  priv_sign k nonce (sha1 m) = SOk b ->
  exists r yr, public_point nonce r yr /\ (r < curve_order -> priv_verify k b m = SOk true) /\
               (curve_order <= r -> priv_verify k b m = SErr BadSignatureError).
Proof. exact verify_sign_digest. Qed.
Print Assumptions C92_hashed_first.

Theorem C92_exact : forall k x y nonce m m' b, public_point (k_secret k) x y -> x < curve_order -> y < curve_order -> 0 < nonce < curve_order ->
  priv_sign k nonce m = SOk b -> exists r yr, public_point nonce r yr /\ (secp_p - curve_order <= r < curve_order ->
    (priv_verify k b m' = SOk true <-> be_val (sha1 m') mod curve_order = be_val m mod curve_order \/
       (be_val (sha1 m') + be_val m + 2 * k_secret k * r) mod curve_order = 0)).
Proof. exact verify_sign_exact. Qed.
Print Assumptions C92_exact.

Theorem C92_digests : forall k x y nonce m b, public_point (k_secret k) x y -> x < curve_order -> y < curve_order -> 0 < nonce < curve_order ->
  priv_sign k nonce m = SOk b -> 2 ^ 160 <= be_val m < curve_order -> exists r yr, public_point nonce r yr /\ (secp_p - curve_order <= r < curve_order ->
    (priv_verify k b m = SOk true <-> (be_val (sha1 m) + be_val m + 2 * k_secret k * r) mod curve_order = 0)).
Proof. exact verify_sign_long. Qed.
Print Assumptions C92_digests.

Theorem C92_roundtrip_refuted : ~ (forall k nonce m b, valid_key k -> 0 < nonce < curve_order -> blen m = 32 -> priv_sign k nonce m = SOk b -> priv_verify k b m = SOk true).
Proof. exact verify_sign_fails. Qed.
Print Assumptions C92_roundtrip_refuted.

(** a digest above 2^160 *)
Example C92_ex : 2 ^ 160 <= be_val (x01 :: zeros 31) < curve_order /\ secp_p - curve_order <= secp_gx < curve_order.
Proof. split; split; (discriminate || reflexivity). Qed.
Example C92_ex_hashed : forall m, exists b, priv_sign w_k1 1 (sha1 m) = SOk b /\ priv_verify w_k1 b m = SOk true.
Proof. exact ex_hashed. Qed.

(** *** C93 *)
Theorem C93_signature_accepted : forall k x y nonce m b st, public_point (k_secret k) x y -> 0 < nonce < curve_order -> priv_sign k nonce m = SOk b ->
  (forall r yr, public_point nonce r yr -> r < curve_order) -> accepts m st x y (b ++ [Zb st]).
Proof. exact sign_accepts. Qed.
Print Assumptions C93_signature_accepted.

Theorem C93_input : forall id n a q i k nonce payload sg st i', address_input_create id n a q = Ok i -> valid_key k -> address_can_sign i [k] = Ok true ->
  0 < nonce < curve_order -> (forall r yr, public_point nonce r yr -> r < curve_order) ->
  priv_sign k nonce payload = SOk (sg 0%nat (k_secret k) payload) -> input_sign sg i [k] payload st = Ok i' ->
  redeems_hash (pyb_bytes (a_phash a)) payload st (s_ins (in_script i')).
Proof. exact address_redeems. Qed.
Print Assumptions C93_input.

Theorem C93_transaction : forall id n a q t j k i nonce sg st t', address_input_create id n a q = Ok i -> nth_error (tx_inputs t) j = Some i -> tx_fits t ->
  valid_key k -> address_can_sign i [k] = Ok true -> 0 < nonce < curve_order -> (forall r yr, public_point nonce r yr -> r < curve_order) ->
  (forall m, signing_message t j st m -> priv_sign k nonce (sha256 (sha256 m)) = SOk (sg 0%nat (k_secret k) (sha256 (sha256 m)))) ->
  tx_sign sg t [k] (Z.of_nat j) st = Ok t' ->
  exists m i', signing_message t j st m /\ nth_error (tx_inputs t') j = Some i' /\ same_but_script i i' /\
    redeems_hash (pyb_bytes (a_phash a)) (sha256 (sha256 m)) st (s_ins (in_script i')).
Proof. exact tx_redeems. Qed.
Print Assumptions C93_transaction.

Theorem C93_spends : forall id n a q t j k i x y nonce r yr st, address_input_create id n a q = Ok i -> nth_error (tx_inputs t) j = Some i -> tx_fits t ->
  valid_key k -> address_can_sign i [k] = Ok true -> public_point (k_secret k) x y -> x < curve_order -> y < curve_order ->
  0 < nonce < curve_order -> public_point nonce r yr -> r < curve_order -> 0 <= st <= 255 ->
  exists m, signing_message t j st m /\ (signable k r (sha256 (sha256 m)) ->
    exists t' i', tx_sign (real_signer (fun _ => nonce)) t [k] (Z.of_nat j) st = Ok t' /\ nth_error (tx_inputs t') j = Some i' /\ same_but_script i i' /\
      redeems_hash (pyb_bytes (a_phash a)) (sha256 (sha256 m)) st (s_ins (in_script i'))).
Proof. exact tx_spends. Qed.
Print Assumptions C93_spends.

Example C93_ex : let a := Address (Str (ripemd160 (sha256 (x02 :: be_bytes 32 secp_gx)))) livenet T_PublicKey in
  exists i sg i', address_input_create (zeros 32) 0 a 4294967295 = Ok i /\ address_can_sign i [w_k1] = Ok true /\
  priv_sign w_k1 1 (zeros 32) = SOk (sg 0%nat 1 (zeros 32)) /\ input_sign sg i [w_k1] (zeros 32) 1 = Ok i' /\
  redeems_hash (pyb_bytes (a_phash a)) (zeros 32) 1 (s_ins (in_script i')).
Proof. exact ex_address. Qed.
Example C93_ex_spend : let a := Address (Str (ripemd160 (sha256 (x02 :: be_bytes 32 secp_gx)))) livenet T_PublicKey in
  exists i t nonce m t' i', address_input_create (repeat x61 64) 0 a 4294967295 = Ok i /\ t = Tx [i] [Output C_Output 5 (Script None [])] 0 1 /\ tx_fits t /\
    address_can_sign i [w_k1] = Ok true /\ signing_message t 0 1 m /\ tx_sign (real_signer (fun _ => nonce)) t [w_k1] 0 1 = Ok t' /\ nth_error (tx_inputs t') 0 = Some i' /\
    redeems_hash (pyb_bytes (a_phash a)) (sha256 (sha256 m)) 1 (s_ins (in_script i')).
Proof. exact ex_spend. Qed.

(** *** C94 *)
Theorem C94_input : forall sg nonces i keys ks payload st i', in_class_of i = C_ScriptInput \/ in_class_of i = C_MultisigInput -> keys <> [] ->
  in_order keys ks -> all_signed sg nonces payload keys -> input_sign sg i keys payload st = Ok i' ->
  List.length (get_signatures (in_script i')) = List.length keys /\ multi_match payload st (get_signatures (in_script i')) ks.
Proof. exact multisig_matches. Qed.
Print Assumptions C94_input.

Theorem C94_transaction : forall sg nonces t j i keys ks st t', nth_error (tx_inputs t) j = Some i -> in_class_of i = C_ScriptInput \/ in_class_of i = C_MultisigInput -> tx_fits t -> keys <> [] ->
  in_order keys ks -> (forall m, signing_message t j st m -> all_signed sg nonces (sha256 (sha256 m)) keys) -> tx_sign sg t keys (Z.of_nat j) st = Ok t' ->
  exists m i', signing_message t j st m /\ nth_error (tx_inputs t') j = Some i' /\ same_but_script i i' /\
    List.length (get_signatures (in_script i')) = List.length keys /\ multi_match (sha256 (sha256 m)) st (get_signatures (in_script i')) ks.
Proof. exact tx_matches. Qed.
Print Assumptions C94_transaction.

Theorem C94_spends : forall t j i rb keys ks nonces st, nth_error (tx_inputs t) j = Some i -> in_class_of i = C_ScriptInput \/ in_class_of i = C_MultisigInput -> tx_fits t ->
  script_to_bytes (in_script i) = Ok rb -> 1 <= blen rb <= 4294967295 -> keys <> [] -> in_order keys ks -> 0 <= st <= 255 ->
  (forall k, In k keys -> exists x y, public_point (k_secret k) x y /\ x < curve_order /\ y < curve_order) ->
  (forall n, 0 < nonces n < curve_order /\ forall r yr, public_point (nonces n) r yr -> r < curve_order) ->
  exists m, signing_message t j st m /\ ((forall n k r yr, nth_error keys n = Some k -> public_point (nonces n) r yr -> signable k r (sha256 (sha256 m))) ->
    exists t' i', tx_sign (real_signer nonces) t keys (Z.of_nat j) st = Ok t' /\ nth_error (tx_inputs t') j = Some i' /\ same_but_script i i' /\
      List.length (get_signatures (in_script i')) = List.length keys /\ multi_match (sha256 (sha256 m)) st (get_signatures (in_script i')) ks).
Proof. exact tx_multisig_spends. Qed.
Print Assumptions C94_spends.

Theorem C94_other_key : forall d d' x y x' y' k nonce r yr payload st b, k_secret k = d -> public_point d x y -> public_point d' x' y' -> d <> d' ->
  0 < nonce < curve_order -> public_point nonce r yr -> secp_p - curve_order <= r < curve_order -> priv_sign k nonce payload = SOk b ->
  accepts payload st x' y' (b ++ [Zb st]) -> (2 * be_val payload + r * (d + d')) mod curve_order = 0.
Proof. exact accepts_other. Qed.
Print Assumptions C94_other_key.

Theorem C94_swapped : forall sg i k1 k2 p1 p2 nonce r yr payload st i', in_class_of i = C_ScriptInput \/ in_class_of i = C_MultisigInput ->
  public_point (k_secret k1) (fst (pk_pair p1)) (snd (pk_pair p1)) -> public_point (k_secret k2) (fst (pk_pair p2)) (snd (pk_pair p2)) -> k_secret k2 <> k_secret k1 ->
  0 < nonce < curve_order -> public_point nonce r yr -> secp_p - curve_order <= r < curve_order -> priv_sign k2 nonce payload = SOk (sg 0%nat (k_secret k2) payload) ->
  input_sign sg i [k2; k1] payload st = Ok i' -> multi_match payload st (get_signatures (in_script i')) [p1; p2] ->
  (2 * be_val payload + r * (k_secret k2 + k_secret k1)) mod curve_order = 0.
Proof. exact multisig_swapped. Qed.
Print Assumptions C94_swapped.

Theorem C94_any_order_refuted : ~ (forall sg nonces id n ks m q i keys payload st i', multisig_input_create id n ks m q = Ok i -> Forall usable_pub ks -> Forall valid_key keys ->
  multisig_can_sign i keys = Ok true -> List.length payload = 32%nat -> all_signed sg nonces payload keys -> input_sign sg i keys payload st = Ok i' ->
  multi_match payload st (get_signatures (in_script i')) ks).
Proof. exact multisig_order_ignored. Qed.
Print Assumptions C94_any_order_refuted.

Example C94_ex : exists sg i i', multisig_input_create (zeros 32) 0 [w_p1; w_p2] 2 4294967295 = Ok i /\ multisig_can_sign i [w_k2; w_k1] = Ok true /\
  all_signed sg (fun _ => 1) (zeros 32) [w_k2; w_k1] /\ input_sign sg i [w_k2; w_k1] (zeros 32) 1 = Ok i' /\
  ~ multi_match (zeros 32) 1 (get_signatures (in_script i')) [w_p1; w_p2] /\ multi_match (zeros 32) 1 (get_signatures (in_script i')) [w_p2; w_p1].
Proof. exact ex_multisig. Qed.
Example C94_ex_order : in_order [w_k1; w_k2] [w_p1; w_p2] /\ in_order [w_k2] [w_p1; w_p2] /\ ~ in_order [w_k2; w_k1] [w_p1; w_p2].
Proof. exact ex_in_order. Qed.
