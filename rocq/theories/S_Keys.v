(** Specifications for networks, private keys, addresses and DER signatures. *)
From Coq Require Import String.
From Verif Require Import Base S_Codec M_Keys.
Open Scope Z_scope.

(** The documented version numbers, written out. *)
Inductive network_number : network -> string -> Z -> Prop :=
  | nn_live_pkh : network_number livenet "pubkeyhash" 0
  | nn_live_sh : network_number livenet "scripthash" 5
  | nn_live_wif : network_number livenet "wif_prefix" 128
  | nn_live_hdpub : network_number livenet "hd_public_key" 76067358
  | nn_live_hdpriv : network_number livenet "hd_private_key" 76066276
  | nn_live_magic : network_number livenet "magic" 4190024921
  | nn_live_port : network_number livenet "port" 8333
  | nn_test_pkh : network_number testnet "pubkeyhash" 111
  | nn_test_sh : network_number testnet "scripthash" 196
  | nn_test_wif : network_number testnet "wif_prefix" 239
  | nn_test_hdpub : network_number testnet "hd_public_key" 70617039
  | nn_test_hdpriv : network_number testnet "hd_private_key" 70615956
  | nn_test_magic : network_number testnet "magic" 185665799
  | nn_test_port : network_number testnet "port" 18333.

(** Networks known to the library. *)
Definition known (n : network) : Prop := n = livenet \/ n = testnet.

(** Order of secp256k1. *)
Definition curve_order : Z :=
  115792089237316195423570985008687907852837564279074904382605163141518161494337.

(** A usable private key: secret in range, one of the known networks. *)
Definition valid_key (k : privkey) : Prop := 0 < k_secret k < curve_order /\ known (k_network k).

(** WIF payload of a key, by the book. *)
Definition wif_payload (n : network) (secret32 : bytes) (compressed : bool) (p : bytes) : Prop :=
  exists v, network_number n "wif_prefix" (bZ v) /\ length secret32 = 32%nat /\
            p = v :: secret32 ++ (if compressed then [x01] else []).

(** Address payload. *)
Definition addr_payload (n : network) (t : addr_type) (h : bytes) (p : bytes) : Prop :=
  exists v, network_number n (match t with T_PublicKey => "pubkeyhash" | T_Script => "scripthash" end) (bZ v)
            /\ length h = 20%nat /\ p = v :: h.

(** A usable address with a [str] hash. *)
Definition valid_addr (a : address) : Prop :=
  known (a_network a) /\ exists h, a_phash a = Str h /\ length h = 20%nat.

(** DER: a minimal non-negative INTEGER body. *)
Definition der_int (r : bytes) : Prop :=
  match r with
  | [] => False
  | [a] => bZ a < 128
  | a :: b :: _ => bZ a < 128 /\ (bZ a = 0 -> 128 <= bZ b)
  end.
(** BIP66 signature with its trailing hash-type byte. *)
Definition bip66 (s : bytes) : Prop :=
  exists total lr ls r t hashtype,
    s = [x30; total; x02; lr] ++ r ++ [x02; ls] ++ t ++ [hashtype] /\
    bZ total = blen s - 3 /\ bZ lr = blen r /\ bZ ls = blen t /\
    der_int r /\ der_int t /\ 9 <= blen s <= 73.
