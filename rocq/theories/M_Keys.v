(** Model of bitforge/networks.py, bitforge/privkey.py (without EC), bitforge/address.py
    (without public keys and scripts) and bitforge/signature.py. *)
From Coq Require Import String.
From Verif Require Import Base M_Hash M_Codec.
Open Scope Z_scope.

(** ASCII text literal. *)
Definition txt (s : string) : bytes := list_byte_of_string s.

(** ** networks.py *)

(** bitforge/networks.py:12-24 [Network] (namedtuple).  [seeds] is a list of host names. *)
Record network := Network {
  n_name : bytes; n_pubkeyhash : Z; n_wif_prefix : Z; n_scripthash : Z;
  n_hd_public_key : Z; n_hd_private_key : Z; n_magic : Z; n_port : Z; n_seeds : list bytes }.

(** bitforge/networks.py:27-44 *)
Definition testnet : network := Network (txt "testnet") 111 239 196 0x043587cf 0x04358394 0x0b110907 18333
  [txt "testnet-seed.bitcoin.petertodd.org"; txt "testnet-seed.bluematt.me";
   txt "testnet-seed.alexykot.me"; txt "testnet-seed.bitcoin.schildbach.de"].

(** bitforge/networks.py:46-65 *)
Definition livenet : network := Network (txt "livenet") 0x00 0x80 0x05 0x0488b21e 0x0488ade4 0xf9beb4d9 8333
  [txt "seed.bitcoin.sipa.be"; txt "dnsseed.bluematt.me"; txt "dnsseed.bitcoin.dashjr.org";
   txt "seed.bitcoinstats.com"; txt "seed.bitnodes.io"; txt "bitseed.xf2.org"].

(** bitforge/networks.py:67 [_networks] *)
Definition networks : list network := [livenet; testnet].

(** A value handed to [find]: a Network object, an int or a text. *)
Inductive nval := VNet (n : network) | VInt (z : Z) | VText (t : bytes).

(** [getattr(network, attr) == value] (networks.py:75) for [value] an int or a text;
    [None] is AttributeError.
    Simplification: attributes other than the declared fields (methods of the
    namedtuple) are taken as absent; they never compare equal to an int or a field value. *)
Definition attr_eq (n : network) (attr : bytes) (v : nval) : option bool :=
  let int z := match v with VInt z' => z =? z' | _ => false end in
  if bytes_eqb attr (txt "name") then Some (match v with VText t => bytes_eqb (n_name n) t | _ => false end)
  else if bytes_eqb attr (txt "pubkeyhash") then Some (int (n_pubkeyhash n))
  else if bytes_eqb attr (txt "wif_prefix") then Some (int (n_wif_prefix n))
  else if bytes_eqb attr (txt "scripthash") then Some (int (n_scripthash n))
  else if bytes_eqb attr (txt "hd_public_key") then Some (int (n_hd_public_key n))
  else if bytes_eqb attr (txt "hd_private_key") then Some (int (n_hd_private_key n))
  else if bytes_eqb attr (txt "magic") then Some (int (n_magic n))
  else if bytes_eqb attr (txt "port") then Some (int (n_port n))
  else if bytes_eqb attr (txt "seeds") then Some false
  else None.

Fixpoint find_loop (l : list network) (attr : bytes) (v : nval) : option network :=
  match l with
  | [] => None
  | n :: r => match attr_eq n attr v with
              | None => None
              | Some true => Some n
              | Some false => find_loop r attr v
              end
  end.

(** bitforge/networks.py:69-82 [find] with [raises = False] ([None] is Python None) *)
Definition find_opt (v : nval) (attr : bytes) : option network :=
  match v with VNet n => Some n | _ => find_loop networks attr v end.

(** bitforge/networks.py:69-82 [find] with [raises = True] *)
Definition find (v : nval) (attr : bytes) : res network :=
  match find_opt v attr with Some n => Ok n | None => Err E_UnknownNetwork end.

Definition is_unknown_network (e : exn) : bool := match e with E_UnknownNetwork => true | _ => false end.

(** ** compat.py *)

(** bitforge/compat.py:7-8 [chr]: [bytes(bytearray([n]))] *)
Definition compat_chr (n : Z) : res bytes :=
  if (0 <=? n) && (n <? 256) then Ok [Zb n] else Err E_ValueError.

(** ** privkey.py *)

(** bitforge/utils/secp256k1.py: order of the generator; KEY_MAX, privkey.py:14 *)
Definition key_max : Z := 0xFFFFFFFFFFFFFFFFFFFFFFFFFFFFFFFEBAAEDCE6AF48A03BBFD25E8CD0364141.

Record privkey := PrivateKey { k_secret : Z; k_network : network; k_compressed : bool }.

(** bitforge/privkey.py:20-24 [find_network] *)
Definition priv_find_network (v : nval) (attr : bytes) : res network :=
  recatch (find v attr) is_unknown_network E_Priv_UnknownNetwork.

(** bitforge/privkey.py:58-67 [PrivateKey.__new__].
    Simplification: [secret] is given (the [None] case draws a random secret in range). *)
Definition new_privkey (secret : Z) (net : nval) (compressed : bool) : res privkey :=
  let! network := priv_find_network net (txt "name") in
  if negb ((0 <? secret) && (secret <? key_max)) then Err E_Priv_InvalidSecret
  else Ok (PrivateKey secret network compressed).

Definition is_invalid_base58h (e : exn) : bool := match e with E_InvalidBase58h => true | _ => false end.
Definition is_invalid_hex (e : exn) : bool := match e with E_InvalidHex => true | _ => false end.

(** bitforge/privkey.py:69-92 [PrivateKey.from_wif] *)
Definition priv_from_wif (s : bytes) : res privkey :=
  let! b := recatch (decode_base58h s) is_invalid_base58h E_Priv_InvalidBase58h in
  let! bc :=
    (if blen b =? 33 then Ok (b, false)
     else if blen b =? 34 then
       (if negb (byte_at_end 1 b =? 1) then Err E_Priv_InvalidCompressionByte
        else Ok (drop_last 1 b, true))
     else Err E_Priv_InvalidWifLength) in
  let '(b, compressed) := bc in
  match b with
  | [] => Err E_IndexError
  | b0 :: rest =>
      let! network := priv_find_network (VInt (bZ b0)) (txt "wif_prefix") in
      let secret := decode_int rest true in
      new_privkey secret (VNet network) compressed
  end.

(** bitforge/privkey.py:94-100 [PrivateKey.from_bytes] *)
Definition priv_from_bytes (b : bytes) (net : nval) (compressed : bool) : res privkey :=
  if negb (blen b =? 32) then Err E_Priv_InvalidBinaryLength
  else new_privkey (decode_int b true) net compressed.

(** bitforge/privkey.py:102-109 [PrivateKey.from_hex] *)
Definition priv_from_hex (s : bytes) (net : nval) (compressed : bool) : res privkey :=
  let! b := recatch (decode_hex s) is_invalid_hex E_Priv_InvalidHex in
  priv_from_bytes b net compressed.

(** bitforge/privkey.py:118-119 [to_bytes] *)
Definition priv_to_bytes (k : privkey) : bytes := encode_int (k_secret k) true (Some 32%nat).

(** bitforge/privkey.py:111-116 [to_wif] *)
Definition priv_to_wif (k : privkey) : res bytes :=
  let! network_byte := compat_chr (n_wif_prefix (k_network k)) in
  let secret_bytes := priv_to_bytes k in
  let compressed_byte := if k_compressed k then [x01] else [] in
  encode_base58h (Str (network_byte ++ secret_bytes ++ compressed_byte)).

(** bitforge/privkey.py:121-122 [to_hex] *)
Definition priv_to_hex (k : privkey) : bytes := encode_hex (priv_to_bytes k).

(** ** address.py *)

(** bitforge/address.py:16-18 [Address.Type] *)
Inductive addr_type := T_PublicKey | T_Script.

Record address := Address { a_phash : pyb; a_network : network; a_type : addr_type }.

(** Argument [type] of the constructor may be any object. *)
Inductive type_arg := TA (t : addr_type) | TA_other.

(** bitforge/address.py:45-57 [Address.__new__] *)
Definition new_address (phash : pyb) (net : nval) (ty : type_arg) : res address :=
  let! network := recatch (find net (txt "name")) is_unknown_network E_Addr_UnknownNetwork in
  match ty with
  | TA_other => Err E_Addr_InvalidType
  | TA t => if negb (pyb_len phash =? 20) then Err E_Addr_InvalidHashLength
            else Ok (Address phash network t)
  end.

(** bitforge/address.py:86-98 [Address.classify_bytes] (argument non-empty) *)
Definition addr_classify (version : Z) : res (network * addr_type) :=
  match find_opt (VInt version) (txt "pubkeyhash") with
  | Some n => Ok (n, T_PublicKey)
  | None => match find_opt (VInt version) (txt "scripthash") with
            | Some n => Ok (n, T_Script)
            | None => Err E_Addr_InvalidVersion
            end
  end.

(** Slicing keeps the byte-string kind. *)
Definition pyb_map (f : bytes -> bytes) (p : pyb) : pyb :=
  match p with Str l => Str (f l) | BA l => BA (f l) end.

(** bitforge/address.py:68-75 [Address.from_bytes] *)
Definition addr_from_bytes (p : pyb) : res address :=
  if negb (pyb_len p =? 21) then Err E_Addr_InvalidBinaryLength
  else match pyb_bytes p with
       | [] => Err E_IndexError
       | v :: _ =>
           let! nt := addr_classify (bZ v) in
           new_address (pyb_map (skipn 1) p) (VNet (fst nt)) (TA (snd nt))
       end.

(** bitforge/address.py:59-66 [Address.from_string] *)
Definition addr_from_string (s : bytes) : res address :=
  let! b := recatch (decode_base58h s) is_invalid_base58h E_Addr_InvalidBase58h in
  addr_from_bytes (Str b).

(** bitforge/address.py:77-84 [Address.from_hex] *)
Definition addr_from_hex (s : bytes) : res address :=
  let! b := recatch (decode_hex s) is_invalid_hex E_Addr_InvalidHex in
  addr_from_bytes (Str b).

(** bitforge/address.py:110-112 [to_bytes]; [str + bytearray] is a bytearray. *)
Definition addr_version (a : address) : Z :=
  match a_type a with
  | T_PublicKey => n_pubkeyhash (a_network a)
  | T_Script => n_scripthash (a_network a)
  end.
Definition addr_to_bytes (a : address) : res pyb :=
  let! v := compat_chr (addr_version a) in
  Ok (pyb_map (fun l => v ++ l) (a_phash a)).

(** bitforge/address.py:114-115 [to_string] *)
Definition addr_to_string (a : address) : res bytes :=
  let! b := addr_to_bytes a in encode_base58h b.

(** bitforge/address.py:117-118 [to_hex] *)
Definition addr_to_hex (a : address) : res bytes :=
  let! b := addr_to_bytes a in Ok (encode_hex (pyb_bytes b)).

(** ** signature.py *)

(** [sig[i]] on the list of ordinals, [i >= 0]. *)
Definition sig_at (s : bytes) (i : Z) : res Z :=
  match nth_error s (Z.to_nat i) with Some b => Ok (bZ b) | None => Err E_IndexError end.

(** bitforge/signature.py:11-64 [validate_signature]; [map(ord, sig)] fails on the ints
    of a non-empty bytearray. *)
Definition validate_signature (p : pyb) : res bool :=
  match p with
  | BA (_ :: _) => Err E_TypeError
  | BA [] => Ok false
  | Str s =>
      let len := blen s in
      if len <? 9 then Ok false else
      if len >? 73 then Ok false else
      let! s0 := sig_at s 0 in
      if negb (s0 =? 48) then Ok false else
      let! s1 := sig_at s 1 in
      if negb (s1 =? len - 3) then Ok false else
      let! lenR := sig_at s 3 in
      if 5 + lenR >=? len then Ok false else
      let! lenS := sig_at s (5 + lenR) in
      if negb (lenR + lenS + 7 =? len) then Ok false else
      let! s2 := sig_at s 2 in
      if negb (s2 =? 2) then Ok false else
      if lenR =? 0 then Ok false else
      let! s4 := sig_at s 4 in
      if negb (Z.land s4 128 =? 0) then Ok false else
      let! s5 := sig_at s 5 in
      if (lenR >? 1) && (s4 =? 0) && (Z.land s5 128 =? 0) then Ok false else
      let! sR4 := sig_at s (lenR + 4) in
      if negb (sR4 =? 2) then Ok false else
      if lenS =? 0 then Ok false else
      let! sR6 := sig_at s (lenR + 6) in
      if negb (Z.land sR6 128 =? 0) then Ok false else
      let! sR7 := (if (lenS >? 1) && (sR6 =? 0) then sig_at s (lenR + 7) else Ok 128) in
      if (lenS >? 1) && (sR6 =? 0) && (Z.land sR7 128 =? 0) then Ok false else
      Ok true
  end.
