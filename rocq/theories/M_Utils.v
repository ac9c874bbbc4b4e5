(** Model of the helpers in bitforge/utils/encoding.py (lines 168-304) that the classes do not use themselves,
    and of bitforge/utils/intbytes.py (Python 2 branches). *)
From Verif Require Import Base M_Hash M_Codec M_Keys M_EC.
Open Scope Z_scope.

(** ** utils/encoding.py *)

(** [try: m except EncodingError: return False; return True] *)
Definition succeeds {A} (m : res A) : res bool :=
  match m with Ok _ => Ok true | Err e => if is_utils_encoding e then Ok false else Err e end.
(** bitforge/utils/encoding.py:168-174 [is_hashed_base58_valid] *)
Definition is_hashed_base58_valid (s : bytes) : res bool := succeeds (a2b_hashed_base58 s).

(** bitforge/utils/encoding.py:177-184 [wif_to_tuple_of_prefix_secret_exponent_compressed] *)
Definition wif_to_tuple (wif : bytes) : res (bytes * Z * bool) :=
  let! decoded := a2b_hashed_base58 wif in
  let key := skipn 1 decoded in
  let! v := from_bytes_32 (Str (firstn 32 key)) in
  Ok (firstn 1 decoded, v, blen key >? 32).
(** bitforge/utils/encoding.py:187-197 [wif_to_tuple_of_secret_exponent_compressed]; [prefixes] is the list of
    allowed first bytes *)
Definition wif_to_secret_compressed (wif : bytes) (prefixes : list bytes) : res (Z * bool) :=
  let! (prefix, v, compressed) := wif_to_tuple wif in
  if existsb (bytes_eqb prefix) prefixes then Ok (v, compressed) else Err E_UtilsEncodingError.
(** bitforge/utils/encoding.py:200-202 [wif_to_secret_exponent] *)
Definition wif_to_secret_exponent (wif : bytes) (prefixes : list bytes) : res Z :=
  let! (v, _) := wif_to_secret_compressed wif prefixes in Ok v.
(** bitforge/utils/encoding.py:205-211 [is_valid_wif] *)
Definition is_valid_wif (wif : bytes) (prefixes : list bytes) : res bool := succeeds (wif_to_secret_exponent wif prefixes).
(** bitforge/utils/encoding.py:214-219 [secret_exponent_to_wif] *)
Definition secret_exponent_to_wif (secret : Z) (compressed : bool) (prefix : bytes) : res bytes :=
  let! s := to_bytes_32 secret in
  b2a_hashed_base58 (Str (prefix ++ s ++ if compressed then [x01] else [])).

(** bitforge/utils/encoding.py:257-261 [public_pair_to_hash160_sec] *)
Definition public_pair_to_hash160_sec (pair : Z * Z) (compressed : bool) : res bytes :=
  let! sec := public_pair_to_sec pair compressed in Ok (hash160_u sec).
(** bitforge/utils/encoding.py:264-266 [hash160_sec_to_bitcoin_address], on [str]s *)
Definition hash160_sec_to_bitcoin_address (h prefix : bytes) : res bytes := b2a_hashed_base58 (Str (prefix ++ h)).
(** bitforge/utils/encoding.py:269-280 [bitcoin_address_to_hash160_sec_with_prefix].  The message of line 279
    puts the first byte of the blob, a [str], into a unicode text: UnicodeDecodeError unless it is ASCII. *)
Definition address_to_hash160_prefix (a : bytes) : res (bytes * bytes) :=
  let! blob := a2b_hashed_base58 a in
  if negb (blen blob =? 21) then Err E_UtilsEncodingError else
  if existsb (bytes_eqb (firstn 1 blob)) [[x6f]; [x00]] then Ok (skipn 1 blob, firstn 1 blob)
  else Err (if all_ascii (firstn 1 blob) then E_UtilsEncodingError else E_UnicodeDecodeError).
(** bitforge/utils/encoding.py:283-289 [bitcoin_address_to_hash160_sec] *)
Definition address_to_hash160 (a prefix : bytes) : res bytes :=
  let! (h, actual) := address_to_hash160_prefix a in
  if bytes_eqb prefix actual then Ok h else Err E_UtilsEncodingError.
(** bitforge/utils/encoding.py:292-295 [public_pair_to_bitcoin_address] *)
Definition public_pair_to_bitcoin_address (pair : Z * Z) (compressed : bool) (prefix : bytes) : res bytes :=
  let! h := public_pair_to_hash160_sec pair compressed in hash160_sec_to_bitcoin_address h prefix.
(** bitforge/utils/encoding.py:298-304 [is_valid_bitcoin_address].  [prefix in allowable_prefixes] on [str]s is a
    search for a substring; the prefix is one byte long. *)
Definition is_valid_bitcoin_address (a prefixes : bytes) : res bool :=
  match address_to_hash160_prefix a with
  | Ok (_, prefix) => Ok (existsb (fun b => bytes_eqb prefix [b]) prefixes)
  | Err e => if is_utils_encoding e then Ok false else Err e
  end.

(** ** utils/intbytes.py *)

(** bitforge/utils/intbytes.py:43-51 [to_bytes]; [range(length)] is empty for a negative length *)
Fixpoint ib_loop (length : nat) (v : Z) : bytes :=
  match length with O => [] | S k => Zb (Z.land v 255) :: ib_loop k (Z.shiftr v 8) end.
Definition ib_encode (v length : Z) (big : bool) : bytes :=
  let l := ib_loop (Z.to_nat length) v in if big then rev l else l.
(** bitforge/utils/intbytes.py:53-62 [from_bytes] on a [str].  With [signed] set, line 60 fails: [bytes[0] & 0x80] is
    a [str] and an int; [reversed(bytes)] cannot be indexed; an empty [str] has no element 0. *)
Definition ib_decode (s : bytes) (big signed : bool) : res Z :=
  let v := fold_left (fun v c => Z.shiftl v 8 + bZ c) (if big then s else rev s) 0 in
  if signed then Err (match s with [] => if big then E_IndexError else E_TypeError | _ => E_TypeError end) else Ok v.
(** bitforge/utils/intbytes.py:64-70 [int_to_bytes]: the loop runs while [v > 0], at most once per bit *)
Fixpoint ib_min_loop (fuel : nat) (v : Z) : bytes :=
  match fuel with
  | O => []
  | S f => if v >? 0 then Zb (Z.land v 255) :: ib_min_loop f (Z.shiftr v 8) else []
  end.
Definition int_to_bytes (v : Z) : bytes := rev (ib_min_loop (S (Z.to_nat (Z.log2 v))) v).
