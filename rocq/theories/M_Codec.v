(** Model of bitforge/encoding.py, bitforge/tools.py (Buffer) and the codec part of
    bitforge/utils/encoding.py. *)
From Verif Require Import Base M_Hash.

(** bitforge/encoding.py:47-49, the loop of [encode_int]:
    [while integer > 0: data.append(integer & 0xff); integer >>= 8].
    The fuel is the bit length; [P_Codec.int_loop_unfold] proves the fuel-free
    equation, so it never runs out. *)
Fixpoint int_loop_f (fuel : nat) (n : Z) : bytes :=
  match fuel with
  | O => []
  | S f => if n >? 0 then Zb (Z.land n 255) :: int_loop_f f (Z.shiftr n 8) else []
  end.
Definition int_loop (n : Z) : bytes := int_loop_f (S (Z.to_nat (Z.log2 n))) n.

(** bitforge/encoding.py:41-58 [encode_int].
    Simplification: [length] is [None] or a non-negative int (all callers). *)
Definition encode_int (n : Z) (big_endian : bool) (len : option nat) : bytes :=
  if n =? 0 then
    match len with None => [x00] | Some k => zeros k end
  else
    let data := int_loop n in
    let data := match len with None => data | Some k => firstn k (data ++ zeros k) end in
    if big_endian then rev data else data.

(** bitforge/encoding.py:61-71 [decode_int].  [bytearray(bytes)] accepts str,
    bytearray and the reversed iterators of both. *)
Definition decode_int (l : bytes) (big_endian : bool) : Z :=
  fold_left (fun a b => Z.shiftl a 8 + bZ b) (if big_endian then l else rev l) 0.

(** bitforge/encoding.py:74-86 [encode_varint].  Integers of 253..0xFFFF etc. use
    little endian fixed widths; there is no upper check. *)
Definition encode_varint (n : Z) : bytes :=
  if n <? 253 then encode_int n true None
  else if n <=? 65535 then xfd :: encode_int n false (Some 2%nat)
  else if n <=? 4294967295 then xfe :: encode_int n false (Some 4%nat)
  else xff :: encode_int n false (Some 8%nat).

(** Python slice [l[:n]] for any int [n]. *)
Definition slice_to {A} (n : Z) (l : list A) : list A :=
  if n <? 0 then firstn (length l - Z.to_nat (- n)) l else firstn (Z.to_nat (Z.min n (blen l))) l.
Definition slice_from {A} (n : Z) (l : list A) : list A :=
  if n <? 0 then skipn (length l - Z.to_nat (- n)) l else skipn (Z.to_nat (Z.min n (blen l))) l.

(** A computation on a Buffer: outcome and the buffer content afterwards, also
    when it raises. *)
Definition rd (A : Type) := bytes -> res A * bytes.
Definition rret {A} (a : A) : rd A := fun s => (Ok a, s).
Definition rerr {A} (e : exn) : rd A := fun s => (Err e, s).
Definition rbind {A B} (m : rd A) (f : A -> rd B) : rd B :=
  fun s => match m s with (Ok a, s') => f a s' | (Err e, s') => (Err e, s') end.
Notation "'do!' x ':=' m 'in' k" := (rbind m (fun x => k))
  (at level 200, x pattern, m at level 100, k at level 200, right associativity).

(** bitforge/tools.py:19-25 [Buffer.read]: [ret = self[:amount]; del self[:amount]].
    The result is a [bytearray] (kind tracked by callers). *)
Definition buf_read (amount : Z) : rd bytes :=
  fun s => if blen s <? amount then (Err (E_InsufficientData (blen s) amount), s)
           else (Ok (slice_to amount s), slice_from amount s).

(** bitforge/tools.py:42-43 [Buffer.write] *)
Definition buf_write (data s : bytes) : bytes := s ++ data.

(** bitforge/tools.py:27-40 [Buffer.read_varint] *)
Definition read_varint : rd Z :=
  do! b := buf_read 1 in
  let order := decode_int b true in
  if order <? 253 then rret order
  else if order =? 253 then (do! d := buf_read 2 in rret (decode_int d false))
  else if order =? 254 then (do! d := buf_read 4 in rret (decode_int d false))
  else (do! d := buf_read 8 in rret (decode_int d false)).

(** ** Hexadecimal *)

(** [binascii.hexlify]: lower case digit of a value 0..15. *)
Definition hex_digit (z : Z) : byte := if z <? 10 then Zb (48 + z) else Zb (87 + z).
(** [binascii.unhexlify] digit value, both cases. *)
Definition hex_value (b : byte) : option Z :=
  let z := bZ b in
  if (48 <=? z) && (z <=? 57) then Some (z - 48)
  else if (97 <=? z) && (z <=? 102) then Some (z - 87)
  else if (65 <=? z) && (z <=? 70) then Some (z - 55)
  else None.

(** bitforge/encoding.py:107-108 [encode_hex] (text as the list of its ASCII codes) *)
Fixpoint encode_hex (l : bytes) : bytes :=
  match l with
  | [] => []
  | b :: r => hex_digit (bZ b / 16) :: hex_digit (bZ b mod 16) :: encode_hex r
  end.

Fixpoint unhex_loop (s : bytes) : option bytes :=
  match s with
  | [] => Some []
  | [_] => None
  | a :: b :: r =>
      match hex_value a, hex_value b, unhex_loop r with
      | Some x, Some y, Some t => Some (Zb (16 * x + y) :: t)
      | _, _, _ => None
      end
  end.

(** bitforge/encoding.py:111-116 [decode_hex].  Simplification: the argument is a
    byte [str] or an ASCII unicode string (a non-ASCII unicode string raises
    UnicodeEncodeError instead). *)
Definition decode_hex (s : bytes) : res bytes :=
  match unhex_loop s with Some l => Ok l | None => Err E_InvalidHex end.

(** ** Base 58 *)

(** bitforge/utils/encoding.py:35 [BASE58_ALPHABET] *)
Definition base58_alphabet : bytes :=
  [x31;x32;x33;x34;x35;x36;x37;x38;x39;
   x41;x42;x43;x44;x45;x46;x47;x48;x4a;x4b;x4c;x4d;x4e;x50;x51;x52;x53;x54;x55;x56;x57;x58;x59;x5a;
   x61;x62;x63;x64;x65;x66;x67;x68;x69;x6a;x6b;x6d;x6e;x6f;x70;x71;x72;x73;x74;x75;x76;x77;x78;x79;x7a].
Definition base58_base : Z := blen base58_alphabet.

(** bitforge/utils/encoding.py:37 [BASE58_LOOKUP], a dict: the last index of a
    character (characters are distinct, so the first). *)
Fixpoint index_of (c : byte) (l : bytes) (i : Z) : option Z :=
  match l with
  | [] => None
  | x :: r => if byte_eqb x c then Some i else index_of c r (i + 1)
  end.
Definition base58_lookup (c : byte) : option Z := index_of c base58_alphabet 0.
Definition base58_char (v : Z) : option byte :=
  if v <? 0 then None else nth_error base58_alphabet (Z.to_nat v).

Definition is_ascii (b : byte) : bool := bZ b <? 128.
Definition all_ascii (l : bytes) : bool := forallb is_ascii l.

(** The exception of line 77: building the message [u"bad character %s in string %s"]
    decodes the byte string [s] as ASCII, which itself fails on non-ASCII bytes. *)
Definition to_long_error (s : bytes) : exn :=
  if all_ascii s then E_UtilsEncodingError else E_UnicodeDecodeError.

(** bitforge/utils/encoding.py:58-80 [to_long]; [lookup c = None] is an exception
    inside [lookup_f]. *)
Fixpoint to_long_loop (base : Z) (lookup : byte -> option Z) (s : bytes) (v prefix : Z) : option (Z * Z) :=
  match s with
  | [] => Some (v, prefix)
  | c :: r =>
      match lookup c with
      | None => None
      | Some d =>
          let v' := v * base + d in
          to_long_loop base lookup r v' (if v' =? 0 then prefix + 1 else prefix)
      end
  end.
Definition to_long (base : Z) (lookup : byte -> option Z) (s : bytes) : res (Z * Z) :=
  match to_long_loop base lookup s 0 0 with
  | Some r => Ok r
  | None => Err (to_long_error s)
  end.

(** bitforge/utils/encoding.py:92-97: [while v > 0: v, mod = divmod(v, base);
    l.append(charset(mod))].  Fuel as in [int_loop] (base >= 2);
    [P_Codec.from_long_loop_unfold] proves the fuel-free equation. *)
Fixpoint from_long_loop_f (fuel : nat) (v base : Z) (charset : Z -> option byte) : option bytes :=
  match fuel with
  | O => Some []
  | S f =>
      if v >? 0 then
        match charset (v mod base), from_long_loop_f f (v / base) base charset with
        | Some c, Some r => Some (c :: r)
        | _, _ => None
        end
      else Some []
  end.
Definition from_long_loop (v base : Z) (charset : Z -> option byte) : option bytes :=
  from_long_loop_f (S (Z.to_nat (Z.log2 v))) v base charset.

(** bitforge/utils/encoding.py:83-100 [from_long] *)
Definition from_long (v prefix base : Z) (charset : Z -> option byte) : res bytes :=
  match from_long_loop v base charset, charset 0 with
  | Some l, Some z => Ok (rev (l ++ repeat z (Z.to_nat prefix)))
  | _, _ => Err E_UtilsEncodingError
  end.

(** [lambda x: x] followed by [bytearray.append]. *)
Definition charset256 (v : Z) : option byte := if (0 <=? v) && (v <? 256) then Some (Zb v) else None.

(** [byte_to_int = ord] (bitforge/utils/intbytes.py:32) applied to the elements of a
    [str] (one-character strings) or of a [bytearray] (ints: TypeError). *)
Definition ord_of (p : pyb) : byte -> option Z :=
  match p with Str _ => fun c => Some (bZ c) | BA _ => fun _ => None end.

(** bitforge/utils/encoding.py:103-107 [to_bytes_32] (Python 2 branch) *)
Definition to_bytes_32 (v : Z) : res bytes :=
  let! s := from_long v 0 256 charset256 in
  if blen s >? 32 then Err E_ValueError else Ok (last_n 32 (zeros 32 ++ s)).

(** bitforge/utils/encoding.py:113-116 [from_bytes_32] (Python 2 branch) *)
Definition from_bytes_32 (p : pyb) : res Z :=
  if negb (pyb_len p =? 32) then Err E_ValueError
  else let! r := to_long 256 (ord_of p) (pyb_bytes p) in Ok (fst r).

(** bitforge/utils/encoding.py:132-136 [b2a_base58].  The result is ASCII, so
    [decode("utf8")] cannot fail. *)
Definition b2a_base58 (p : pyb) : res bytes :=
  let! r := to_long 256 (ord_of p) (pyb_bytes p) in
  from_long (fst r) (snd r) base58_base base58_char.

(** bitforge/utils/encoding.py:139-142 [a2b_base58]; [s] is the UTF-8 encoding of the
    text.  A Python 2 byte [str] with non-ASCII bytes raises UnicodeDecodeError in
    [s.encode], the same outcome as here. *)
Definition a2b_base58 (s : bytes) : res bytes :=
  let! r := to_long base58_base base58_lookup s in
  from_long (fst r) (snd r) 256 charset256.

(** bitforge/utils/encoding.py:145-153 [b2a_hashed_base58]; [bytearray + str] is a
    bytearray, so the kind is kept. *)
Definition b2a_hashed_base58 (p : pyb) : res bytes :=
  let d := pyb_bytes p in
  let d' := d ++ firstn 4 (double_sha256 d) in
  b2a_base58 (match p with Str _ => Str d' | BA _ => BA d' end).

(** bitforge/utils/encoding.py:156-165 [a2b_hashed_base58] *)
Definition a2b_hashed_base58 (s : bytes) : res bytes :=
  let! data := a2b_base58 s in
  let payload := drop_last 4 data in
  if bytes_eqb (firstn 4 (double_sha256 payload)) (last_n 4 data) then Ok payload
  else Err E_UtilsEncodingError.

(** bitforge/encoding.py:29-30 [encode_base58h] *)
Definition encode_base58h (p : pyb) : res bytes := b2a_hashed_base58 p.

(** bitforge/encoding.py:33-38 [decode_base58h] *)
Definition is_utils_encoding (e : exn) : bool :=
  match e with E_UtilsEncodingError => true | _ => false end.
Definition decode_base58h (s : bytes) : res bytes :=
  recatch (a2b_hashed_base58 s) is_utils_encoding E_InvalidBase58h.

(** ** Script numbers *)

(** Python [bytes[-1]], [bytes[-2]] on a bytearray that is long enough. *)
Definition byte_at_end (k : nat) (l : bytes) : Z := bZ (nth (length l - k) l x00).

(** bitforge/encoding.py:135-171 [decode_script_number].  On a non-empty [str],
    [bytes[-1] & 0x7f] / [& 0x80] is [str & int]: TypeError. *)
Definition decode_script_number (p : pyb) (minimal : bool) (size : Z) : res Z :=
  let l := pyb_bytes p in
  if blen l >=? size then Err E_InvalidScriptNumber
  else
    match p, l with
    | _, [] => Ok 0
    | Str _, _ :: _ => Err E_TypeError
    | BA _, _ :: _ =>
        let top := byte_at_end 1 l in
        if minimal && (Z.land top 127 =? 0)
           && ((blen l <=? 1) || (Z.land (byte_at_end 2 l) 128 =? 0))
        then Err E_InvalidMinimalScriptNumber
        else if negb (Z.land top 128 =? 0) then
          Ok (decode_int (drop_last 1 l ++ encode_int (Z.land top 127) true None) false * -1)
        else Ok (decode_int l false)
    end.

(** bitforge/encoding.py:174-190 [encode_script_number]; returns a bytearray. *)
Definition encode_script_number (n : Z) : bytes :=
  if n =? 0 then []
  else if n >? 0 then
    let l := encode_int n false None in
    if negb (Z.land (byte_at_end 1 l) 128 =? 0) then l ++ encode_int 0 true None else l
  else
    let l := encode_int (- n) false None in
    if negb (Z.land (byte_at_end 1 l) 128 =? 0) then l ++ encode_int 128 true None
    else drop_last 1 l ++ encode_int (Z.lor (byte_at_end 1 l) 128) true None.
