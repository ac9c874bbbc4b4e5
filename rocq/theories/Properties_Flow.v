(** Property theorems C105: the programs in examples/. *)
From Coq Require Import ZArith Lia List.
From Verif Require Import Base M_Hash M_Codec S_Codec M_Keys S_Keys M_EC S_EC M_Script S_Script M_Tx S_Tx M_Sign S_Sign P_SignTx M_Obj S_Obj M_Flow S_Flow P_Flow.
Import ListNotations.
Open Scope Z_scope.

(** *** C105 *)
Theorem C105_wallet : forall pk net w, known net -> (open_wallet pk net = Ok w <-> exists d x y kb,
  hex_text pk d /\ length d = 32%nat /\ public_point (be_val d) x y /\ sec_of x y true kb /\
  w = (PrivateKey (be_val d) net true, PublicKey (x, y) net true, Address (Str (ripemd160 (sha256 kb))) net T_PublicKey)).
Proof. exact wallet_iff. Qed.
Print Assumptions C105_wallet.

Theorem C105_wallet_errors : forall pk net e, known net -> (open_wallet pk net = Err e <->
  (e = E_Priv_InvalidHex /\ ~ exists d, hex_text pk d) \/
  (e = E_Priv_InvalidBinaryLength /\ exists d, hex_text pk d /\ length d <> 32%nat) \/
  (e = E_Priv_InvalidSecret /\ exists d, hex_text pk d /\ length d = 32%nat /\ ~ 0 < be_val d < curve_order)).
Proof. exact wallet_err. Qed.
Print Assumptions C105_wallet_errors.

Theorem C105_serial : forall pk d net id idb n amt, hex_text pk d -> length d = 32%nat -> 0 < be_val d < curve_order -> known net ->
  hex_text id idb -> length idb = 32%nat -> u32 n -> u64 amt ->
  exists x y kb t1 t2 w, public_point (be_val d) x y /\ sec_of x y true kb /\ example_serial pk id n amt net = Ok (t1, t2) /\
    one_to_one idb n (pay_to_hash (ripemd160 (sha256 kb))) amt (ripemd160 (sha256 kb)) w /\
    tx_to_hex t1 = Ok (encode_hex w) /\ tx_to_hex t2 = Ok (encode_hex w) /\
    forall u v, is_tx u t1 -> is_tx v t2 -> decides (py_eq u v) (map lower id = id).
Proof. exact serial_ok. Qed.
Print Assumptions C105_serial.

Theorem C105_pubkey : forall pk d net id idb n amt fee nonce r yr, hex_text pk d -> length d = 32%nat -> 0 < be_val d < curve_order -> known net ->
  hex_text id idb -> length idb = 32%nat -> u32 n -> u64 (amt - fee) ->
  (forall x y, public_point (be_val d) x y -> x < curve_order /\ y < curve_order) -> public_point nonce r yr -> r < curve_order ->
  exists x y kb m, public_point (be_val d) x y /\ sec_of x y true kb /\
    one_to_one idb n (pay_to_hash (ripemd160 (sha256 kb))) (amt - fee) (ripemd160 (sha256 kb)) m /\
    let digest := sha256 (sha256 (m ++ [x01; x00; x00; x00])) in
    ((be_val digest + be_val d * r) mod curve_order <> 0 ->
     exists sg script addr w, example_pubkey (real_signer (fun _ => nonce)) pk id n amt fee net = Ok (encode_hex d, encode_hex kb, addr, encode_hex w) /\
       addr_from_string addr = Ok (Address (Str (ripemd160 (sha256 kb))) net T_PublicKey) /\
       accepts digest 1 x y sg /\ sig_and_key sg kb script /\ one_to_one idb n script (amt - fee) (ripemd160 (sha256 kb)) w /\ blen w <= 193).
Proof. exact pubkey_ok. Qed.
Print Assumptions C105_pubkey.

(** the key 1 on testnet, an id in lower case, an amount of 11000 and a fee of 1000 *)
Example C105_ex : exists pk d id idb nonce r yr, hex_text pk d /\ length d = 32%nat /\ be_val d = 1 /\ 0 < be_val d < curve_order /\ known testnet /\
  hex_text id idb /\ length idb = 32%nat /\ u32 0 /\ u64 (11000 - 1000) /\ map lower id = id /\
  (forall x y, public_point (be_val d) x y -> x < curve_order /\ y < curve_order) /\ public_point nonce r yr /\ r < curve_order /\
  exists h k a w, example_pubkey (real_signer (fun _ => nonce)) pk id 0 11000 1000 testnet = Ok (h, k, a, w) /\ h = pk.
Proof. exact flow_ex. Qed.
