(** Model of the programs in examples/: a key, its address, a transaction from an output of
    that address back to it, serialized and signed. *)
From Verif Require Import Base M_Keys M_EC M_Script M_Tx.
Open Scope Z_scope.

(** examples/example_pubkey.py:14-16 and examples/example_serial.py:22-24: the key, the public key and
    the address; the key is compressed by default (bitforge/privkey.py:103) *)
Definition open_wallet (pk_hex : bytes) (net : network) : res (privkey * pubkey * address) :=
  let! privkey := priv_from_hex pk_hex (VNet net) true in
  let! pubkey := priv_to_public_key privkey in
  let! address := addr_from_public_key pubkey in
  Ok (privkey, pubkey, address).

(** examples/example_pubkey.py:19-22 and examples/example_serial.py:26-29; the defaults are
    bitforge/transaction/input.py:11, 124 (FINAL_SEQ_NUMBER) and
    bitforge/transaction/transaction.py:37 (lock_time, version) *)
Definition build_tx (tx_id : bytes) (index amount : Z) (a : address) : res tx :=
  let! i := address_input_create tx_id index a 0xFFFFFFFF in
  let! o := address_output_create amount a in
  new_tx [O_In i] [O_Out o] 0 1.

(** examples/example_serial.py:22-34: the two transactions whose [to_hex] is shown and which are compared *)
Definition example_serial (pk_hex tx_id : bytes) (index amount : Z) (net : network) : res (tx * tx) :=
  let! w := open_wallet pk_hex net in
  let! t1 := build_tx tx_id index amount (snd w) in
  let! b := tx_to_bytes t1 in
  let! t2 := tx_from_bytes b in
  Ok (t1, t2).

(** examples/example_pubkey.py:14-31: what it shows, the key, the public key, the address and the signed
    transaction.  [sg] is the signature function (see M_Tx.v); SIGHASH_ALL is 1. *)
Definition example_pubkey (sg : signer) (pk_hex tx_id : bytes) (index amount fee : Z) (net : network) : res (bytes * bytes * bytes * bytes) :=
  let! w := open_wallet pk_hex net in
  let '(privkey, pubkey, address) := w in
  let! t := build_tx tx_id index (amount - fee) address in
  let! signed := tx_sign sg t [privkey] 0 1 in
  let! signed_hex := tx_to_hex signed in
  let! pub_hex := pk_to_hex pubkey in
  let! addr := addr_to_string address in
  Ok (priv_to_hex privkey, pub_hex, addr, signed_hex).
