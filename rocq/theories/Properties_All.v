(** Signing all the inputs of a transaction: C111. *)
From Coq Require Import Permutation.
From Verif Require Import Base S_Codec M_Hash M_Keys S_Keys M_EC S_EC M_Script S_Script M_Tx S_Tx M_Sign S_Sign P_SignTx S_All P_All.
Import ListNotations.
Open Scope Z_scope.

(** *** C111 *)
Theorem C111_each : forall l t, distinct l -> ((exists t', sign_all t l = Ok t') <-> Forall (fun j => exists t', run_job t j = Ok t') l).
Proof. exact all_ok. Qed.
Print Assumptions C111_each.

Theorem C111_order : forall l l' t t', distinct l -> Permutation l l' -> sign_all t l = Ok t' -> sign_all t l' = Ok t'.
Proof. exact all_order. Qed.
Print Assumptions C111_order.

Theorem C111_frame : forall l t t', distinct l -> sign_all t l = Ok t' -> same_but_scripts t t' /\
  (forall k, (forall j, In j l -> j_index j <> Z.of_nat k) -> nth_error (tx_inputs t') k = nth_error (tx_inputs t) k) /\
  forall j, In j l -> exists u, run_job t j = Ok u /\ nth_error (tx_inputs t') (Z.to_nat (j_index j)) = nth_error (tx_inputs u) (Z.to_nat (j_index j)).
Proof. exact all_result. Qed.
Print Assumptions C111_frame.

Theorem C111_signed : forall l t t' j, distinct l -> tx_fits t -> sign_all t l = Ok t' -> In j l -> u32 (j_type j) ->
  exists i i' m code, nth_error (tx_inputs t) (Z.to_nat (j_index j)) = Some i /\ nth_error (tx_inputs t') (Z.to_nat (j_index j)) = Some i' /\
    signing_message t (Z.to_nat (j_index j)) (j_type j) m /\ wire_script (map content (s_ins (in_script i))) code /\ network_message t' (Z.to_nat (j_index j)) code (j_type j) m /\
    input_sign (j_signer j) i (j_keys j) (sha256 (sha256 m)) (j_type j) = Ok i'.
Proof. exact all_signed_ok. Qed.
Print Assumptions C111_signed.

Theorem C111_message_unique : forall t j code st m m', network_message t j code st m -> network_message t j code st m' -> m = m'.
Proof. exact network_unique. Qed.
Print Assumptions C111_message_unique.

Theorem C111_address : forall l t t' sg k j st id n a q i nonce, distinct l -> tx_fits t -> sign_all t l = Ok t' -> In (Job sg [k] (Z.of_nat j) st) l ->
  address_input_create id n a q = Ok i -> nth_error (tx_inputs t) j = Some i -> valid_key k -> address_can_sign i [k] = Ok true ->
  0 < nonce < curve_order -> (forall r yr, public_point nonce r yr -> r < curve_order) ->
  (forall m, signing_message t j st m -> priv_sign k nonce (sha256 (sha256 m)) = SOk (sg 0%nat (k_secret k) (sha256 (sha256 m)))) ->
  exists m i', network_message t' j (key_hash_code (pyb_bytes (a_phash a))) st m /\ nth_error (tx_inputs t') j = Some i' /\ same_but_script i i' /\
    redeems_hash (pyb_bytes (a_phash a)) (sha256 (sha256 m)) st (s_ins (in_script i')).
Proof. exact all_address. Qed.
Print Assumptions C111_address.

Theorem C111_script : forall l t t' sg keys ks j st i nonces, distinct l -> tx_fits t -> sign_all t l = Ok t' -> In (Job sg keys (Z.of_nat j) st) l ->
  nth_error (tx_inputs t) j = Some i -> in_class_of i = C_ScriptInput \/ in_class_of i = C_MultisigInput -> keys <> [] -> in_order keys ks ->
  (forall m, signing_message t j st m -> all_signed sg nonces (sha256 (sha256 m)) keys) ->
  exists rb m i', script_to_bytes (in_script i) = Ok rb /\ network_message t' j rb st m /\ nth_error (tx_inputs t') j = Some i' /\ same_but_script i i' /\
    List.length (get_signatures (in_script i')) = List.length keys /\ multi_match (sha256 (sha256 m)) st (get_signatures (in_script i')) ks /\ get_script (in_script i') = script_from_bytes rb.
Proof. exact all_script. Qed.
Print Assumptions C111_script.

Theorem C111_can_sign : forall i k, valid_key k -> (address_can_sign i [k] = Ok true <->
  s_class (in_script i) = Some PayToPubkeyOut /\ exists p d, pk_from_private_key k = Ok p /\ get_address_hash (in_script i) = Ok (Some d) /\ key_hash p (pyb_bytes d)).
Proof. exact can_sign_iff. Qed.
Print Assumptions C111_can_sign.

Theorem C111_can_sign_other : forall i keys, (List.length keys <> 1%nat -> address_can_sign i keys = Ok false) /\
  forall k, valid_key k -> s_class (in_script i) <> Some PayToPubkeyOut -> address_can_sign i [k] = Err E_AttributeError.
Proof. exact can_sign_other. Qed.
Print Assumptions C111_can_sign_other.

Theorem C111_multisig_can_sign_other : forall i keys, s_class (in_script i) <> Some RedeemMultisig -> multisig_can_sign i keys = Err E_AttributeError.
Proof. exact multisig_can_sign_other. Qed.
Print Assumptions C111_multisig_can_sign_other.

Example C111_multisig_can_sign_ex : multisig_can_sign (Input C_MultisigInput (zeros 32) 0 (Script None []) 0) [] = Err E_AttributeError.
Proof. apply C111_multisig_can_sign_other. discriminate. Qed.

Example C111_ex : let a := Address (Str (ripemd160 (sha256 (x02 :: be_bytes 32 secp_gx)))) livenet T_PublicKey in
  exists i0 i1 t n0 n1 t', address_input_create (repeat x61 64) 0 a 4294967295 = Ok i0 /\ address_input_create (repeat x61 64) 1 a 4294967295 = Ok i1 /\
    t = Tx [i0; i1] [Output C_Output 5 (Script None [])] 0 1 /\ tx_fits t /\ valid_key w_k1 /\ address_can_sign i0 [w_k1] = Ok true /\ address_can_sign i1 [w_k1] = Ok true /\
    (exists r yr, public_point n0 r yr /\ r < curve_order) /\ (exists r yr, public_point n1 r yr /\ r < curve_order) /\
    (forall m, signing_message t 0 1 m -> priv_sign w_k1 n0 (sha256 (sha256 m)) = SOk (real_signer (fun _ => n0) 0%nat (k_secret w_k1) (sha256 (sha256 m)))) /\
    (forall m, signing_message t 1 1 m -> priv_sign w_k1 n1 (sha256 (sha256 m)) = SOk (real_signer (fun _ => n1) 0%nat (k_secret w_k1) (sha256 (sha256 m)))) /\
    distinct [Job (real_signer (fun _ => n1)) [w_k1] 1 1; Job (real_signer (fun _ => n0)) [w_k1] 0 1] /\
    sign_all t [Job (real_signer (fun _ => n1)) [w_k1] 1 1; Job (real_signer (fun _ => n0)) [w_k1] 0 1] = Ok t'.
Proof. exact ex_all. Qed.
