(** Model of bitforge/hdprivkey.py and bitforge/hdpubkey.py. *)
From Coq Require Import String.
From Verif Require Import Base M_Hash M_Codec M_Keys M_EC.
Open Scope Z_scope.

(** bitforge/utils/intbytes.py:43-51 [to_bytes] (big endian): the low [length] bytes,
    two's complement for negative numbers *)
Definition ib_to_bytes (v : Z) (length : nat) : bytes := be_bytes length v.
(** bitforge/utils/intbytes.py:72-77 [int_from_bytes] on a str *)
Definition int_from_bytes (s : bytes) : Z := fold_left (fun v c => Z.shiftl v 8 + bZ c) s 0.

(** [data[a:b]] on a str, 0 <= a <= b *)
Definition slice (a b : nat) (l : bytes) : bytes := firstn (b - a) (skipn a l).

(** Python 2 [unicode + str]: the str is decoded as ASCII *)
Definition add_unicode (u s : bytes) : res bytes := if all_ascii s then Ok (u ++ s) else Err E_UnicodeDecodeError.

(** bitforge/hdprivkey.py:14-17, bitforge/hdpubkey.py:9-10 *)
Definition min_seed_len : Z := 32.
Definition hmac_magic_key : bytes := txt "Bitcoin seed".
Definition root_fingerprint : Z := 0.
Definition hardened_start : Z := 0x80000000.

(** bitforge/hdprivkey.py:24-26, the named tuple.  [chain] is a str. *)
Record hdpriv := HDPriv { hv_privkey : privkey; hv_chain : bytes; hv_depth : Z; hv_index : Z; hv_parent : Z;
                          hv_network : network; hv_fingerprint : Z }.
(** bitforge/hdpubkey.py:16-18 *)
Record hdpub := HDPub { hp_pubkey : pubkey; hp_chain : bytes; hp_depth : Z; hp_index : Z; hp_parent : Z;
                        hp_network : network; hp_fingerprint : Z }.

(** bitforge/hdprivkey.py:20-21 [calculate_fingerprint] *)
Definition priv_fingerprint (k : privkey) : res bytes :=
  let! p := priv_to_public_key k in
  let! b := pk_to_bytes p in
  Ok (firstn 4 (hash160_u b)).

(** bitforge/hdpubkey.py:13-14 [calculate_fingerprint] *)
Definition pub_fingerprint (p : pubkey) : res bytes :=
  let! b := pk_to_bytes p in Ok (firstn 4 (hash160_u b)).

(** bitforge/hdprivkey.py:28-33 [HDPrivateKey.__new__].
    Simplification: [network] is a Network object (the code does not look at it). *)
Definition new_hdpriv (k : privkey) (chain : bytes) (depth index parent : Z) (net : network) : res hdpriv :=
  let! f := priv_fingerprint k in
  Ok (HDPriv k chain depth index parent net (int_from_bytes f)).

(** bitforge/hdpubkey.py:20-25 [HDPublicKey.__new__] *)
Definition new_hdpub (p : pubkey) (chain : bytes) (depth index parent : Z) (net : network) : res hdpub :=
  let! f := pub_fingerprint p in
  Ok (HDPub p chain depth index parent net (int_from_bytes f)).

(** bitforge/hdprivkey.py:35-45 [from_seed] with a given seed (None draws 32 random bytes) *)
Definition hdpriv_from_seed (seed : bytes) : res hdpriv :=
  if blen seed <? min_seed_len then Err E_ValueError else
  let signed64 := hmac_sha512 hmac_magic_key seed in
  let! k := priv_from_bytes (firstn 32 signed64) (VNet livenet) true in
  new_hdpriv k (skipn 32 signed64) 0 0 root_fingerprint livenet.

(** bitforge/hdprivkey.py:114-138, the field offsets *)
Definition off_version : nat := 0.
Definition off_depth : nat := 4.
Definition off_parent : nat := 5.
Definition off_index : nat := 9.
Definition off_chain : nat := 13.
Definition off_chain_end : nat := 45.
Definition off_privkey : nat := 46.
Definition off_key_end : nat := 78.

(** bitforge/hdprivkey.py:48-62 [from_string] *)
Definition hdpriv_from_string (s : bytes) : res hdpriv :=
  let! data := a2b_hashed_base58 s in
  let chain := slice off_chain off_chain_end data in
  let depth := int_from_bytes (slice off_depth off_parent data) in
  let index := int_from_bytes (slice off_index off_chain data) in
  let parent := int_from_bytes (slice off_parent off_index data) in
  let version := int_from_bytes (slice off_version off_depth data) in
  let! net := find (VInt version) (txt "hd_private_key") in
  let! k := priv_from_bytes (slice off_privkey off_key_end data) (VNet net) true in
  new_hdpriv k chain depth index parent net.

(** bitforge/hdpubkey.py:28-42 [from_string]; offsets hdpubkey.py:96-120, the same except that
    the key starts at once after the chain code *)
Definition hdpub_from_string (s : bytes) : res hdpub :=
  let! data := a2b_hashed_base58 s in
  let chain := slice off_chain off_chain_end data in
  let depth := int_from_bytes (slice off_depth off_parent data) in
  let index := int_from_bytes (slice off_index off_chain data) in
  let parent := int_from_bytes (slice off_parent off_index data) in
  let version := int_from_bytes (slice off_version off_depth data) in
  let! net := find (VInt version) (txt "hd_public_key") in
  let! p := pk_from_bytes (Str (slice off_chain_end off_key_end data)) (VNet net) in
  new_hdpub p chain depth index parent net.

(** bitforge/hdpubkey.py:45-49 [from_hd_private_key]; hdprivkey.py:104-105 [to_hd_public_key] *)
Definition hdpub_from_hdpriv (h : hdpriv) : res hdpub :=
  let! p := priv_to_public_key (hv_privkey h) in
  new_hdpub p (hv_chain h) (hv_depth h) (hv_index h) (hv_parent h) (hv_network h).

(** [utils.encoding.b2a_hashed_base58] (bitforge/utils/encoding.py:145-153) on a unicode string
    of ASCII characters: [hashlib] encodes it as ASCII, [data + digest[:4]] decodes the digest *)
Definition b2a_hashed_unicode (u : bytes) : res bytes :=
  let! d := add_unicode u (firstn 4 (double_sha256 u)) in b2a_base58 (Str d).

(** bitforge/hdprivkey.py:65-77 [to_string]: the first operand is the unicode literal "" *)
Definition hdpriv_to_string (h : hdpriv) : res bytes :=
  let! u := add_unicode [] (ib_to_bytes (n_hd_private_key (hv_network h)) 4) in
  let! u := add_unicode u (ib_to_bytes (hv_depth h) 1) in
  let! u := add_unicode u (ib_to_bytes (hv_parent h) 4) in
  let! u := add_unicode u (ib_to_bytes (hv_index h) 4) in
  let! u := add_unicode u (hv_chain h) in
  let! u := add_unicode u [x00] in
  let! u := add_unicode u (priv_to_bytes (hv_privkey h)) in
  b2a_hashed_unicode u.

(** bitforge/hdpubkey.py:51-62 [to_string] *)
Definition hdpub_to_string (h : hdpub) : res bytes :=
  let! u := add_unicode [] (ib_to_bytes (n_hd_public_key (hp_network h)) 4) in
  let! u := add_unicode u (ib_to_bytes (hp_depth h) 1) in
  let! u := add_unicode u (ib_to_bytes (hp_parent h) 4) in
  let! u := add_unicode u (ib_to_bytes (hp_index h) 4) in
  let! u := add_unicode u (hp_chain h) in
  let! kb := pk_to_bytes (hp_pubkey h) in
  let! u := add_unicode u kb in
  b2a_hashed_unicode u.

(** bitforge/hdprivkey.py:80-102 [derive].  [PrivateKey] has no attribute [seed] (line 97), so
    the last step is reached by no execution; it is kept as the error it raises.  The HMAC has
    no other effect. *)
Definition hdpriv_derive (h : hdpriv) (index : Z) (hardened : bool) : res hdpriv :=
  let! msg := (if hardened
               then let! key := add_unicode [x00] (priv_to_bytes (hv_privkey h)) in
                    add_unicode key (ib_to_bytes (hv_index h) 4)
               else let! p := priv_to_public_key (hv_privkey h) in
                    let! key := pk_to_bytes p in
                    Ok (key ++ ib_to_bytes (hv_index h) 4)) in
  Err E_AttributeError.

(** bitforge/hdpubkey.py:65-90 [derive] *)
Definition hdpub_derive (h : hdpub) (index : Z) (hardened : bool) : res hdpub :=
  let index := if (index <? hardened_start) && hardened then index + hardened_start else index in
  if hardened then Err E_ValueError else
  let! key := pk_to_bytes (hp_pubkey h) in
  let signed64 := hmac_sha512 (hp_chain h) (key ++ ib_to_bytes (hp_index h) 4) in
  let '(x, y) := pk_pair (hp_pubkey h) in
  let! A := p_mul secp256k1 secp_G (int_from_bytes (firstn 32 signed64)) in
  let! Q := new_point secp256k1 x y (Some key_max) in
  let! pt := p_add secp256k1 A Q in
  match pt with
  | PInf => Err E_TypeError
  | PAff px py _ =>
      let! p := new_pubkey (px, py) (VNet (hp_network h)) true in
      new_hdpub p (skipn 32 signed64) (hp_depth h + 1) index (hp_fingerprint h) (hp_network h)
  end.
