(** Property theorems C01-C10: integer, varint, buffer, hex, base58 and script-number codecs. *)
From Verif Require Import Base M_Hash M_Codec S_Codec P_Codec P_ScriptNum.

(** *** C01 *)
Theorem C01_fixed_length : forall n k be, length (encode_int n be (Some k)) = k.
Proof. exact encode_int_length. Qed.
Print Assumptions C01_fixed_length.

Theorem C01_fixed_digits : forall n k i, 0 <= n -> (i < k)%nat ->
  bZ (nth i (encode_int n false (Some k)) x00) = n / 256 ^ Z.of_nat i mod 256.
Proof. exact encode_int_fixed_digits. Qed.
Print Assumptions C01_fixed_digits.

Theorem C01_big_endian_is_reverse : forall n k,
  encode_int n true (Some k) = rev (encode_int n false (Some k)).
Proof. exact encode_int_fixed_be. Qed.
Print Assumptions C01_big_endian_is_reverse.

Theorem C01_decode_is_positional : forall l, decode_int l true = be_val l /\ decode_int l false = le_val l.
Proof. exact (fun l => conj (decode_int_be l) (decode_int_le l)). Qed.
Print Assumptions C01_decode_is_positional.

Theorem C01_decode_encode_truncates : forall n k be, 0 <= n ->
  decode_int (encode_int n be (Some k)) be = n mod 256 ^ Z.of_nat k.
Proof. exact decode_encode_fixed. Qed.
Print Assumptions C01_decode_encode_truncates.

Theorem C01_negative_is_zeros : forall n k be, n < 0 -> encode_int n be (Some k) = repeat x00 k.
Proof. exact encode_int_neg. Qed.
Print Assumptions C01_negative_is_zeros.

Example C01_ex_fits : encode_int 258 true (Some 4%nat) = [x00; x00; x01; x02]
  /\ encode_int 258 false (Some 4%nat) = [x02; x01; x00; x00].
Proof. split; reflexivity. Qed.
Example C01_ex_truncates : encode_int 65793 true (Some 2%nat) = [x01; x01]
  /\ decode_int [x01; x01] true = 257.
Proof. split; reflexivity. Qed.
Example C01_ex_negative : encode_int (-5) true (Some 2%nat) = [x00; x00].
Proof. reflexivity. Qed.

(** Silent truncation: "fixed-width encoding round-trips" is false without a bound. *)
Theorem C01_unbounded_roundtrip_refuted :
  ~ (forall n k be, 0 <= n -> decode_int (encode_int n be (Some k)) be = n).
Proof. exact (fun H => ltac:(discriminate (H 256 1%nat true ltac:(lia)))). Qed.
Print Assumptions C01_unbounded_roundtrip_refuted.

(** *** C02 *)
Theorem C02_roundtrip : forall n be, 0 <= n -> decode_int (encode_int n be None) be = n.
Proof. exact decode_encode_var. Qed.
Print Assumptions C02_roundtrip.

Theorem C02_shortest : forall n l, 0 <= n -> l <> [] -> le_val l = n ->
  (length (encode_int n false None) <= length l)%nat.
Proof. exact encode_int_var_shortest. Qed.
Print Assumptions C02_shortest.

Theorem C02_nonempty : forall n, 0 <= n -> encode_int n false None <> [].
Proof. exact encode_int_var_nonempty. Qed.
Print Assumptions C02_nonempty.

Theorem C02_big_endian_is_reverse : forall n, encode_int n true None = rev (encode_int n false None).
Proof. exact encode_int_var_be. Qed.
Print Assumptions C02_big_endian_is_reverse.

Theorem C02_negative_is_empty : forall n be, n < 0 -> encode_int n be None = [].
Proof. exact encode_int_var_neg. Qed.
Print Assumptions C02_negative_is_empty.

Example C02_ex : encode_int 0 true None = [x00] /\ encode_int 65536 true None = [x01; x00; x00]
  /\ decode_int [x01; x00; x00] true = 65536.
Proof. repeat split; reflexivity. Qed.

(** *** C03 *)
Theorem C03_varint_is_compact_size : forall n, 0 <= n < 2 ^ 64 -> compact_size n (encode_varint n).
Proof. exact varint_spec. Qed.
Print Assumptions C03_varint_is_compact_size.

Theorem C03_varint_roundtrip : forall n rest, 0 <= n < 2 ^ 64 ->
  read_varint (encode_varint n ++ rest) = (Ok n, rest).
Proof. exact varint_roundtrip. Qed.
Print Assumptions C03_varint_roundtrip.

Theorem C03_varint_overflow_wraps : forall n rest, 2 ^ 64 <= n ->
  read_varint (encode_varint n ++ rest) = (Ok (n mod 2 ^ 64), rest).
Proof. exact varint_overflow. Qed.
Print Assumptions C03_varint_overflow_wraps.

Theorem C03_compact_size_unique : forall n l l', compact_size n l -> compact_size n l' -> l = l'.
Proof. exact compact_size_unique. Qed.
Print Assumptions C03_compact_size_unique.

Example C03_ex : encode_varint 252 = [xfc] /\ encode_varint 253 = [xfd; xfd; x00]
  /\ encode_varint 65536 = [xfe; x00; x00; x01; x00]
  /\ encode_varint (2 ^ 32) = [xff; x00; x00; x00; x00; x01; x00; x00; x00]
  /\ read_varint [xfd; xfd; x00; x07] = (Ok 253, [x07]).
Proof. repeat split; reflexivity. Qed.

(** *** C04 *)
Theorem C04_buffer_refines_fifo : forall ops s xs s',
  buf_run s ops = (xs, s') <-> fifo_run s ops xs s'.
Proof. exact buf_run_fifo. Qed.
Print Assumptions C04_buffer_refines_fifo.

Theorem C04_buffer_conserves_bytes : forall ops s xs s',
  buf_run s ops = (xs, s') -> got xs ++ s' = s ++ written ops.
Proof. exact buf_run_conserve. Qed.
Print Assumptions C04_buffer_conserves_bytes.

Theorem C04_short_read_changes_nothing : forall n s, blen s < n ->
  buf_read n s = (Err (E_InsufficientData (blen s) n), s).
Proof. exact buf_read_short. Qed.
Print Assumptions C04_short_read_changes_nothing.

Example C04_ex : buf_run [x01; x02] [FRead 1%nat; FWrite [x03]; FRead 5%nat; FRead 2%nat]
  = ([FGot [x01]; FDone; FShort 2 5; FGot [x02; x03]], []).
Proof. reflexivity. Qed.

(** *** C05 *)
Theorem C05_hex_roundtrip : forall b, decode_hex (encode_hex b) = Ok b.
Proof. exact decode_encode_hex. Qed.
Print Assumptions C05_hex_roundtrip.

Theorem C05_hex_accepts : forall s b, decode_hex s = Ok b ->
  Nat.Even (length s) /\ Forall is_hex s /\ encode_hex b = map lower s.
Proof. exact decode_hex_ok. Qed.
Print Assumptions C05_hex_accepts.

Theorem C05_hex_total : forall s, Nat.Even (length s) -> Forall is_hex s -> exists b, decode_hex s = Ok b.
Proof. exact decode_hex_total. Qed.
Print Assumptions C05_hex_total.

Theorem C05_hex_rejects : forall s, ~ (Nat.Even (length s) /\ Forall is_hex s) -> decode_hex s = Err E_InvalidHex.
Proof. exact decode_hex_rejects. Qed.
Print Assumptions C05_hex_rejects.

Example C05_ex : encode_hex [x0f; xa0] = [x30; x66; x61; x30] /\ decode_hex [x30; x46; x41; x30] = Ok [x0f; xa0]
  /\ decode_hex [x30] = Err E_InvalidHex /\ decode_hex [x67; x30] = Err E_InvalidHex.
Proof. repeat split; reflexivity. Qed.

(** *** C06 *)
Theorem C06_base58_encodes : forall b, exists t, b2a_base58 (Str b) = Ok t /\ base58_of b t.
Proof. exact b2a_base58_spec. Qed.
Print Assumptions C06_base58_encodes.

Theorem C06_base58_roundtrip : forall b, exists t, b2a_base58 (Str b) = Ok t /\ a2b_base58 t = Ok b.
Proof. exact base58_roundtrip. Qed.
Print Assumptions C06_base58_roundtrip.

Theorem C06_base58_text_unique : forall b t t', base58_of b t -> base58_of b t' -> t = t'.
Proof. exact base58_of_unique_text. Qed.
Print Assumptions C06_base58_text_unique.

Example C06_ex : b2a_base58 (Str [x00; x00; x28; x7f; xb4; xcd]) = Ok [x31; x31; x32; x33; x33; x51; x43; x34]
  /\ a2b_base58 [x31; x31; x32; x33; x33; x51; x43; x34] = Ok [x00; x00; x28; x7f; xb4; xcd].
Proof. split; vm_compute; reflexivity. Qed.

(** *** C07 *)
Theorem C07_base58_accepts_alphabet : forall t, (exists b, a2b_base58 t = Ok b) <-> Forall in58 t.
Proof. exact a2b_base58_ok_iff. Qed.
Print Assumptions C07_base58_accepts_alphabet.

Theorem C07_base58_canonical : forall t b, a2b_base58 t = Ok b -> b2a_base58 (Str b) = Ok t.
Proof. exact a2b_base58_canonical. Qed.
Print Assumptions C07_base58_canonical.

Theorem C07_base58_rejects : forall t, ~ Forall in58 t ->
  a2b_base58 t = Err (if all_ascii t then E_UtilsEncodingError else E_UnicodeDecodeError).
Proof. exact a2b_base58_fail. Qed.
Print Assumptions C07_base58_rejects.

Example C07_ex : a2b_base58 [x30] = Err E_UtilsEncodingError /\ a2b_base58 [xc3; xa9] = Err E_UnicodeDecodeError
  /\ a2b_base58 [] = Ok [].
Proof. repeat split; reflexivity. Qed.

(** *** C08 *)
Theorem C08_base58check_iff : forall t b, decode_base58h t = Ok b <-> encode_base58h (Str b) = Ok t.
Proof. exact decode_base58h_iff. Qed.
Print Assumptions C08_base58check_iff.

Theorem C08_base58check_roundtrip : forall b, exists t, encode_base58h (Str b) = Ok t /\ decode_base58h t = Ok b.
Proof. exact base58h_roundtrip. Qed.
Print Assumptions C08_base58check_roundtrip.

Theorem C08_base58check_text : forall b, exists t, encode_base58h (Str b) = Ok t /\
  base58_of (b ++ firstn 4 (sha256 (sha256 b))) t.
Proof. exact encode_base58h_text. Qed.
Print Assumptions C08_base58check_text.

Theorem C08_base58check_errors : forall t e, decode_base58h t = Err e ->
  e = (if all_ascii t then E_InvalidBase58h else E_UnicodeDecodeError).
Proof. exact decode_base58h_err. Qed.
Print Assumptions C08_base58check_errors.

(** A non-ASCII text escapes the documented exception class. *)
Theorem C08_contained_errors_refuted : exists t, decode_base58h t = Err E_UnicodeDecodeError.
Proof. exact (ex_intro _ [xc3; xa9] eq_refl). Qed.
Print Assumptions C08_contained_errors_refuted.

(** The empty payload is "3QJmnh". *)
Example C08_ex : encode_base58h (Str []) = Ok [x33; x51; x4a; x6d; x6e; x68]
  /\ decode_base58h [x33; x51; x4a; x6d; x6e; x68] = Ok []
  /\ decode_base58h [x33; x51; x4a; x6d; x6e; x69] = Err E_InvalidBase58h.
Proof. repeat split; vm_compute; reflexivity. Qed.

(** *** C09 *)
Theorem C09_encode_value : forall n, sm_val (encode_script_number n) = n.
Proof. exact sm_val_encode. Qed.
Print Assumptions C09_encode_value.

Theorem C09_encode_shortest : forall n, sm_shortest (encode_script_number n).
Proof. exact sm_shortest_encode. Qed.
Print Assumptions C09_encode_shortest.

Theorem C09_roundtrip : forall n m size,
  decode_script_number (BA (encode_script_number n)) m size =
  if blen (encode_script_number n) <? size then Ok n else Err E_InvalidScriptNumber.
Proof. exact decode_encode_script_number. Qed.
Print Assumptions C09_roundtrip.

Theorem C09_default_range : forall n m,
  decode_script_number (BA (encode_script_number n)) m 4 = Ok n <-> - 2 ^ 23 < n < 2 ^ 23.
Proof. exact script_number_default_range. Qed.
Print Assumptions C09_default_range.

(** Bitcoin's 4-byte operand range |n| < 2^31 is not accepted. *)
Theorem C09_four_byte_range_refuted :
  ~ (forall n, - 2 ^ 31 < n < 2 ^ 31 -> decode_script_number (BA (encode_script_number n)) false 4 = Ok n).
Proof. exact (fun H => ltac:(discriminate (H 8388608 ltac:(lia)))). Qed.
Print Assumptions C09_four_byte_range_refuted.

Theorem C09_str_operand_fails : forall l m size, l <> [] -> blen l < size ->
  decode_script_number (Str l) m size = Err E_TypeError.
Proof. exact decode_script_number_str. Qed.
Print Assumptions C09_str_operand_fails.

Example C09_ex : encode_script_number (-255) = [xff; x80] /\ encode_script_number 127 = [x7f]
  /\ encode_script_number 128 = [x80; x00] /\ encode_script_number 8388607 = [xff; xff; x7f]
  /\ decode_script_number (BA [xff; x80]) true 4 = Ok (-255).
Proof. repeat split; reflexivity. Qed.

(** *** C10 *)
Theorem C10_minimal_iff : forall l size n, blen l < size ->
  decode_script_number (BA l) true size = Ok n <-> l = encode_script_number n.
Proof. exact decode_script_number_min_iff. Qed.
Print Assumptions C10_minimal_iff.

Theorem C10_minimal_accepts_exactly_shortest : forall l size, blen l < size ->
  (sm_shortest l -> decode_script_number (BA l) true size = Ok (sm_val l)) /\
  (~ sm_shortest l -> decode_script_number (BA l) true size = Err E_InvalidMinimalScriptNumber).
Proof. exact decode_script_number_minimal. Qed.
Print Assumptions C10_minimal_accepts_exactly_shortest.

Theorem C10_plain_value : forall l size, blen l < size ->
  decode_script_number (BA l) false size = Ok (sm_val l).
Proof. exact decode_script_number_plain. Qed.
Print Assumptions C10_plain_value.

Theorem C10_too_long : forall p m size, size <= pyb_len p ->
  decode_script_number p m size = Err E_InvalidScriptNumber.
Proof. exact decode_script_number_long. Qed.
Print Assumptions C10_too_long.

Theorem C10_shortest_unique : forall l l', sm_shortest l -> sm_shortest l' -> sm_val l = sm_val l' -> l = l'.
Proof. exact sm_shortest_unique. Qed.
Print Assumptions C10_shortest_unique.

Example C10_ex : decode_script_number (BA [x01; x00]) true 4 = Err E_InvalidMinimalScriptNumber
  /\ decode_script_number (BA [x01; x00]) false 4 = Ok 1
  /\ decode_script_number (BA [xff; x00]) true 4 = Ok 255
  /\ decode_script_number (BA [x80]) true 4 = Err E_InvalidMinimalScriptNumber
  /\ decode_script_number (BA [x01; x02; x03; x04]) false 4 = Err E_InvalidScriptNumber.
Proof. repeat split; reflexivity. Qed.
