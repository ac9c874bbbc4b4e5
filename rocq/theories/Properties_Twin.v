(** A signed transaction can be changed by others: C110. *)
From Verif Require Import Base S_Codec M_Hash M_Keys S_Keys M_EC S_EC M_Script S_Script M_Tx S_Tx M_Sign S_Sign P_SignTx S_Twin P_Twin.
Import ListNotations.
Open Scope Z_scope.

(** *** C110 *)
Theorem C110_twin : forall t j i pre a post r s h, tx_fits t -> nth_error (tx_inputs t) j = Some i -> s_ins (in_script i) = pre ++ a :: post -> short_script (pre ++ a :: post) ->
  pushes_sig r s h a -> 0 <= r < 2 ^ 256 -> 0 <= s <= curve_order ->
  exists a' t' w w', pushes_sig r (curve_order - s) h a' /\ (exists b, i_data a' = Some (Str b)) /\ rescripted j (pre ++ a :: post) (pre ++ a' :: post) t t' /\ tx_fits t' /\
    tx_to_bytes t = Ok w /\ tx_to_bytes t' = Ok w' /\ w <> w'.
Proof. exact twin. Qed.
Print Assumptions C110_twin.

Theorem C110_messages : forall j l l' t t' k st m, rescripted j l l' t t' -> k <> j -> (signing_message t' k st m <-> signing_message t k st m).
Proof. exact rescripted_message. Qed.
Print Assumptions C110_messages.

Theorem C110_differs : forall t t' j i i' pre pre' a a' post post' r s h r' s' h' w w', tx_fits t -> tx_fits t' -> nth_error (tx_inputs t) j = Some i -> nth_error (tx_inputs t') j = Some i' ->
  s_ins (in_script i) = pre ++ a :: post -> s_ins (in_script i') = pre' ++ a' :: post' -> List.length pre = List.length pre' -> pushes_sig r s h a -> pushes_sig r' s' h' a' ->
  (r, s) <> (r', s') -> tx_to_bytes t = Ok w -> tx_to_bytes t' = Ok w' -> w <> w'.
Proof. exact bytes_differ. Qed.
Print Assumptions C110_differs.

Theorem C110_address : forall id n a q t j k i nonce sg st t', address_input_create id n a q = Ok i -> nth_error (tx_inputs t) j = Some i -> tx_fits t ->
  valid_key k -> address_can_sign i [k] = Ok true -> 0 < nonce < curve_order -> (forall r yr, public_point nonce r yr -> r < curve_order) ->
  (forall m, signing_message t j st m -> priv_sign k nonce (sha256 (sha256 m)) = SOk (sg 0%nat (k_secret k) (sha256 (sha256 m)))) ->
  tx_sign sg t [k] (Z.of_nat j) st = Ok t' ->
  exists m kb x y r s l l' t2 w w', signing_message t j st m /\ public_point (k_secret k) x y /\ low_s s /\
    redeems_with (pyb_bytes (a_phash a)) (sha256 (sha256 m)) st kb x y r s l /\ redeems_with (pyb_bytes (a_phash a)) (sha256 (sha256 m)) st kb x y r (curve_order - s) l' /\
    rescripted j l l' t' t2 /\ tx_to_bytes t' = Ok w /\ tx_to_bytes t2 = Ok w' /\ w <> w'.
Proof. exact address_twin. Qed.
Print Assumptions C110_address.

Theorem C110_low_unique : forall d h digest st kb x y r s s' l l', public_point d x y -> secp_p <= r + curve_order -> low_s s -> low_s s' ->
  redeems_with h digest st kb x y r s l -> redeems_with h digest st kb x y r s' l' ->
  s = s' /\ map (fun a => option_map pyb_bytes (i_data a)) l = map (fun a => option_map pyb_bytes (i_data a)) l'.
Proof. exact low_unique. Qed.
Print Assumptions C110_low_unique.

Theorem C110_two_nonces : forall t j k i st sg sg' nonce nonce' r r' yr yr' t1 t2 w1 w2, in_class_of i = C_AddressInput -> nth_error (tx_inputs t) j = Some i -> tx_fits t ->
  0 < nonce < curve_order -> 0 < nonce' < curve_order -> public_point nonce r yr -> public_point nonce' r' yr' -> r <> r' ->
  (forall m, signing_message t j st m -> priv_sign k nonce (sha256 (sha256 m)) = SOk (sg 0%nat (k_secret k) (sha256 (sha256 m))) /\
     priv_sign k nonce' (sha256 (sha256 m)) = SOk (sg' 0%nat (k_secret k) (sha256 (sha256 m)))) ->
  tx_sign sg t [k] (Z.of_nat j) st = Ok t1 -> tx_sign sg' t [k] (Z.of_nat j) st = Ok t2 -> tx_to_bytes t1 = Ok w1 -> tx_to_bytes t2 = Ok w2 -> w1 <> w2.
Proof. exact two_nonces. Qed.
Print Assumptions C110_two_nonces.

Example C110_ex : let a := Address (Str (ripemd160 (sha256 (x02 :: be_bytes 32 secp_gx)))) livenet T_PublicKey in
  exists i t n1 r1 y1 n2 r2 y2 t1 t2, address_input_create (repeat x61 64) 0 a 4294967295 = Ok i /\ t = Tx [i] [Output C_Output 5 (Script None [])] 0 1 /\ tx_fits t /\ valid_key w_k1 /\
    address_can_sign i [w_k1] = Ok true /\ public_point n1 r1 y1 /\ public_point n2 r2 y2 /\ r1 < curve_order /\ r2 < curve_order /\ r1 <> r2 /\
    (forall m, signing_message t 0 1 m -> priv_sign w_k1 n1 (sha256 (sha256 m)) = SOk (real_signer (fun _ => n1) 0%nat (k_secret w_k1) (sha256 (sha256 m))) /\
       priv_sign w_k1 n2 (sha256 (sha256 m)) = SOk (real_signer (fun _ => n2) 0%nat (k_secret w_k1) (sha256 (sha256 m)))) /\
    tx_sign (real_signer (fun _ => n1)) t [w_k1] 0 1 = Ok t1 /\ tx_sign (real_signer (fun _ => n2)) t [w_k1] 0 1 = Ok t2.
Proof. exact ex_twins. Qed.
