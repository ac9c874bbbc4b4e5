(** Specifications for signing and verifying with a private key. *)
From Verif Require Import Base S_Codec S_Keys M_Hash M_Keys M_EC S_EC M_Script S_Script M_Tx M_Sign.
Open Scope Z_scope.

(** the DER encoding of a signature: a SEQUENCE of two minimal INTEGERs, with lengths in one byte *)
Definition der_sig (r s : Z) (b : bytes) : Prop :=
  exists rb sb total lr ls, der_int rb /\ der_int sb /\ be_val rb = r /\ be_val sb = s /\
    bZ lr = blen rb /\ bZ ls = blen sb /\ bZ total = 4 + blen rb + blen sb /\ bZ total < 128 /\
    b = [x30; total; x02; lr] ++ rb ++ [x02; ls] ++ sb.

(** a BER length: the short form, or the long form with at least one byte, leading zeros allowed *)
Definition ber_length (l : bytes) (n : Z) : Prop :=
  (exists b, l = [b] /\ bZ b < 128 /\ n = bZ b) \/
  (exists b d, l = b :: d /\ 1 <= blen d /\ bZ b = 128 + blen d /\ n = be_val d).
(** an integer body that does not look negative *)
Definition lax_int (l : bytes) : Prop := match l with b :: _ => bZ b < 128 | [] => False end.
(** what the decoder accepts: BER lengths, padded integers, and a sequence or a second integer that ends early *)
Definition lax_sig (r s : Z) (b : bytes) : Prop :=
  exists l0 n0 l1 rb l2 n2 sb, b = [x30] ++ l0 ++ [x02] ++ l1 ++ rb ++ [x02] ++ l2 ++ sb /\
    ber_length l0 n0 /\ blen ([x02] ++ l1 ++ rb ++ [x02] ++ l2 ++ sb) <= n0 /\
    ber_length l1 (blen rb) /\ ber_length l2 n2 /\ blen sb <= n2 /\
    lax_int rb /\ lax_int sb /\ be_val rb = r /\ be_val sb = s.

(** the secret [d] and its public point *)
Definition public_point (d x y : Z) : Prop :=
  0 < d < curve_order /\ multiple secp_p 0 (EA secp_gx secp_gy) d (EA x y).
(** the point [(x, y)] accepts [(r, s)] as a signature of the number [e], on secp256k1 *)
Definition secp_valid (x y e r s : Z) : Prop := sig_valid secp_p 0 curve_order (EA secp_gx secp_gy) (EA x y) e r s.

(** [sig] is a DER signature with low s and the hash type after it, good for [digest] under the point [(x, y)] *)
Definition accepts (digest : bytes) (sigtype : Z) (x y : Z) (sig : bytes) : Prop :=
  exists b r s, sig = b ++ [Zb sigtype] /\ der_sig r s b /\ 1 <= s <= (curve_order - 1) / 2 /\ secp_valid x y (be_val digest) r s.
(** an input script that redeems an output to the key hash [h]: two pushes, a signature and a key with that hash *)
Definition redeems_hash (h digest : bytes) (sigtype : Z) (l : list instr) : Prop :=
  exists a b sig kb x y compressed, l = [a; b] /\ is_a_push a /\ is_a_push b /\
    i_data a = Some (Str sig) /\ i_data b = Some (Str kb) /\ ripemd160 (sha256 kb) = h /\
    sec_of x y compressed kb /\ on_curve secp_p 0 7 (EA x y) /\ accepts digest sigtype x y sig.
(** the rule of OP_CHECKMULTISIG: every signature matches a key, in the order of the keys *)
Inductive multi_match (digest : bytes) (sigtype : Z) : list (option pyb) -> list pubkey -> Prop :=
| mm_done keys : multi_match digest sigtype [] keys
| mm_take sig sigs k keys : accepts digest sigtype (fst (pk_pair k)) (snd (pk_pair k)) sig -> multi_match digest sigtype sigs keys ->
    multi_match digest sigtype (Some (Str sig) :: sigs) (k :: keys)
| mm_skip s sigs k keys : multi_match digest sigtype (s :: sigs) keys -> multi_match digest sigtype (s :: sigs) (k :: keys).
(** the private keys [keys] belong to some of the public keys [ks], taken in their order *)
Inductive in_order : list privkey -> list pubkey -> Prop :=
| io_done ks : in_order [] ks
| io_take k keys p ks : public_point (k_secret k) (fst (pk_pair p)) (snd (pk_pair p)) -> in_order keys ks -> in_order (k :: keys) (p :: ks)
| io_skip keys p ks : in_order keys ks -> in_order keys (p :: ks).
(** every key signs [payload] with its own number, and none of the numbers gives an abscissa of n or more *)
Definition all_signed (sg : signer) (nonces : nat -> Z) (payload : bytes) (keys : list privkey) : Prop :=
  forall j k, nth_error keys j = Some k -> 0 < nonces j < curve_order /\ (forall r yr, public_point (nonces j) r yr -> r < curve_order) /\
    priv_sign k (nonces j) payload = SOk (sg j (k_secret k) payload).
(** [PrivateKey.sign] as the oracle of [M_Tx], with the random numbers [nonces].  Where [sign] raises it gives the empty
    string; the theorems only use it where [sign] returns. *)
Definition real_signer (nonces : nat -> Z) : signer := fun j secret digest =>
  match priv_sign (PrivateKey secret livenet true) (nonces j) digest with SOk b => b | SErr _ => [] end.
(** the one number a key cannot sign with a nonce whose abscissa is [r] *)
Definition signable (k : privkey) (r : Z) (digest : bytes) : Prop := (be_val digest + k_secret k * r) mod curve_order <> 0.
