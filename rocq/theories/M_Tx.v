(** Model of bitforge/transaction/input.py, output.py and transaction.py. *)
From Verif Require Import Base M_Hash M_Codec M_Keys M_EC M_Script.
Open Scope Z_scope.

(** ** input.py *)

(** The classes of input.py: Input, and its subclasses at lines 121, 151, 172. *)
Inductive in_class := C_Input | C_AddressInput | C_ScriptInput | C_MultisigInput.

(** bitforge/transaction/input.py:14-16, 35-37: a namedtuple of unvalidated fields; the
    object's class is kept beside them.  Simplification: [tx_id] is text (one byte per
    character), [txo_index] and [seq_number] are ints, [script] is a Script. *)
Record input := Input {
  in_class_of : in_class; in_tx_id : bytes; in_index : Z; in_script : script; in_seq : Z }.

(** bitforge/transaction/input.py:39-54 [Input.create].  [OpReturnOut] is not imported there
    (line 8): evaluating the second [elif] is a NameError. *)
Definition input_create (tx_id : bytes) (index : Z) (s : script) (seq : Z) : res input :=
  let! s := script_create (s_ins s) in
  match s_class s with
  | Some PayToPubkeyIn => Ok (Input C_AddressInput tx_id index s seq)
  | Some PayToScriptIn => Ok (Input C_ScriptInput tx_id index s seq)
  | _ => Err E_NameError
  end.

(** bitforge/transaction/input.py:56-75 [to_bytes]: the script is serialised first. *)
Definition input_to_bytes (i : input) : res bytes :=
  let! script := script_to_bytes (in_script i) in
  let! id := decode_hex (in_tx_id i) in
  let buffer := buf_write (rev id) [] in
  let buffer := buf_write (encode_int (in_index i) false (Some 4%nat)) buffer in
  let buffer := buf_write (encode_varint (blen script)) buffer in
  let buffer := buf_write script buffer in
  let buffer := buf_write (encode_int (in_seq i) false (Some 4%nat)) buffer in
  Ok buffer.

(** bitforge/transaction/input.py:77-78 [to_hex] *)
Definition input_to_hex (i : input) : res bytes := let! b := input_to_bytes i in Ok (encode_hex b).

(** bitforge/transaction/input.py:80-84 [replace_script], [remove_script]: a plain Input *)
Definition input_replace_script (i : input) (s : script) : input :=
  Input C_Input (in_tx_id i) (in_index i) s (in_seq i).
Definition input_remove_script (i : input) : input := input_replace_script i (Script None []).

(** [Script.from_bytes(buffer.read(n))] inside a reader *)
Definition lift {A} (r : res A) : rd A := fun s => (r, s).

(** bitforge/transaction/input.py:107-118 [from_buffer]; [cls] is the class it is called on *)
Definition input_from_buffer (cls : in_class) : rd input :=
  do! id := buf_read 32 in
  do! index := buf_read 4 in
  do! script_len := read_varint in
  do! script_bytes := buf_read script_len in
  do! script := lift (script_from_bytes script_bytes) in
  do! seq := buf_read 4 in
  rret (Input cls (encode_hex (rev id)) (decode_int index false) script (decode_int seq false)).

(** bitforge/transaction/input.py:99-105 [from_bytes], [from_hex] *)
Definition input_from_bytes (cls : in_class) (b : bytes) : res input := fst (input_from_buffer cls b).
Definition input_from_hex (cls : in_class) (s : bytes) : res input :=
  let! b := decode_hex s in input_from_bytes cls b.

(** bitforge/transaction/input.py:123-131 [AddressInput.create] *)
Definition address_input_create (tx_id : bytes) (index : Z) (a : address) (seq : Z) : res input :=
  let! s := p2pk_out_create a in Ok (Input C_AddressInput tx_id index s seq).

(** bitforge/transaction/input.py:153-158 [ScriptInput.create] *)
Definition script_input_create (tx_id : bytes) (index : Z) (s : script) (seq : Z) : input :=
  Input C_ScriptInput tx_id index s seq.

(** bitforge/transaction/input.py:174-181 [MultisigInput.create] *)
Definition multisig_input_create (tx_id : bytes) (index : Z) (pubkeys : list pubkey) (m : Z) (seq : Z) : res input :=
  let! s := multisig_create pubkeys m in Ok (Input C_MultisigInput tx_id index s seq).

(** [PrivateKey.sign] (bitforge/privkey.py:130-132) is the external ecdsa package, randomised:
    an oracle giving, for the n-th call of one run, the signature of a digest under a secret. *)
Definition signer := nat -> Z -> bytes -> bytes.

(** Builtin [chr(sigtype)]: ValueError outside 0..255 *)
Definition py_chr (n : Z) : res bytes := if (0 <=? n) && (n <? 256) then Ok [Zb n] else Err E_ValueError.

(** [[ pk.sign(payload) + chr(sigtype) for pk in privkeys ]], bitforge/transaction/input.py:166;
    [n] counts the oracle calls *)
Fixpoint signatures (sg : signer) (n : nat) (keys : list privkey) (payload : bytes) (sigtype : Z) : res (list pyb) :=
  match keys with
  | [] => Ok []
  | k :: r => let! c := py_chr sigtype in
              let! t := signatures sg (S n) r payload sigtype in
              Ok (Str (sg n (k_secret k) payload ++ c) :: t)
  end.

(** bitforge/transaction/input.py:86-97, 133-142, 160-169: [sign] of the four classes
    (MultisigInput inherits ScriptInput's). *)
Definition input_sign (sg : signer) (i : input) (keys : list privkey) (payload : bytes) (sigtype : Z) : res input :=
  match in_class_of i with
  | C_Input => Err E_In_UnknownSignatureMethod
  | C_AddressInput =>
      match keys with
      | [k] =>
          let! pub := priv_to_public_key k in
          let! c := py_chr sigtype in
          let! s := p2pk_in_create pub (Str (sg 0%nat (k_secret k) payload ++ c)) in
          Ok (input_replace_script i s)
      | _ => Err (E_In_InvalidSignatureCount 1 (blen keys))
      end
  | C_ScriptInput | C_MultisigInput =>
      let! sigs := signatures sg 0 keys payload sigtype in
      let! s := p2sh_in_create (in_script i) sigs in
      Ok (input_replace_script i s)
  end.

(** bitforge/transaction/input.py:144-148 [AddressInput.can_sign]; only PayToPubkeyOut scripts
    have [get_address_hash].  A stored [None] equals no hash. *)
Definition address_can_sign (i : input) (keys : list privkey) : res bool :=
  match keys with
  | [k] =>
      let! a := priv_to_address k in
      match s_class (in_script i) with
      | Some PayToPubkeyOut =>
          let! h := get_address_hash (in_script i) in
          Ok (match h with Some d => pyb_eqb (a_phash a) d | None => false end)
      | _ => Err E_AttributeError
      end
  | _ => Ok false
  end.

(** Equality of PublicKey namedtuples (pair, network, compressed); the networks are compared
    by all their fields, so by name. *)
Definition pubkey_eqb (a b : pubkey) : bool :=
  (fst (pk_pair a) =? fst (pk_pair b)) && (snd (pk_pair a) =? snd (pk_pair b))
  && bytes_eqb (n_name (pk_network a)) (n_name (pk_network b))
  && Bool.eqb (pk_compressed a) (pk_compressed b).

(** bitforge/transaction/input.py:189-191, the loop of [can_sign] *)
Fixpoint all_expected (keys : list privkey) (expected : list pubkey) : res bool :=
  match keys with
  | [] => Ok true
  | k :: r => let! p := priv_to_public_key k in
              if negb (existsb (pubkey_eqb p) expected) then Ok false else all_expected r expected
  end.

(** bitforge/transaction/input.py:183-193 [MultisigInput.can_sign]; only RedeemMultisig
    scripts have [get_min_signatures] *)
Definition multisig_can_sign (i : input) (keys : list privkey) : res bool :=
  match s_class (in_script i) with
  | Some RedeemMultisig =>
      let! m := get_min_signatures (in_script i) in
      if negb (blen keys =? m) then Ok false else
      let! expected := get_public_keys (in_script i) in
      all_expected keys expected
  | _ => Err E_AttributeError
  end.

(** ** output.py *)

(** The classes of output.py: Output, and its subclasses at lines 77, 85, 93, 101. *)
Inductive out_class := C_Output | C_AddressOutput | C_ScriptOutput | C_MultisigOutput | C_DataOutput.

(** bitforge/transaction/output.py:10-12, 20-22 *)
Record output := Output { out_class_of : out_class; out_amount : Z; out_script : script }.

(** bitforge/transaction/output.py:24-38 [Output.create] *)
Definition output_create (amount : Z) (s : script) : res output :=
  let! s := script_create (s_ins s) in
  Ok (Output (match s_class s with
              | Some PayToPubkeyOut => C_AddressOutput
              | Some PayToScriptOut => C_ScriptOutput
              | Some OpReturnOut => C_DataOutput
              | _ => C_Output
              end) amount s).

(** bitforge/transaction/output.py:40-53 [to_bytes] *)
Definition output_to_bytes (o : output) : res bytes :=
  let! script := script_to_bytes (out_script o) in
  let buffer := buf_write (encode_int (out_amount o) false (Some 8%nat)) [] in
  let buffer := buf_write (encode_varint (blen script)) buffer in
  let buffer := buf_write script buffer in
  Ok buffer.

(** bitforge/transaction/output.py:55-56 [to_hex] *)
Definition output_to_hex (o : output) : res bytes := let! b := output_to_bytes o in Ok (encode_hex b).

(** bitforge/transaction/output.py:66-74 [from_buffer] *)
Definition output_from_buffer : rd output :=
  do! amount := buf_read 8 in
  do! script_len := read_varint in
  do! script_bytes := buf_read script_len in
  do! script := lift (script_from_bytes script_bytes) in
  lift (output_create (decode_int amount false) script).

(** bitforge/transaction/output.py:58-64 [from_hex], [from_bytes] *)
Definition output_from_bytes (b : bytes) : res output := fst (output_from_buffer b).
Definition output_from_hex (s : bytes) : res output := let! b := decode_hex s in output_from_bytes b.

(** bitforge/transaction/output.py:77-82 [AddressOutput.create] *)
Definition address_output_create (amount : Z) (a : address) : res output :=
  let! s := p2pk_out_create a in Ok (Output C_AddressOutput amount s).
(** bitforge/transaction/output.py:85-90 [ScriptOutput.create] *)
Definition script_output_create (amount : Z) (redeem : script) : res output :=
  let! s := p2sh_out_create redeem in Ok (Output C_ScriptOutput amount s).
(** bitforge/transaction/output.py:93-98 [MultisigOutput.create] *)
Definition multisig_output_create (amount : Z) (pubkeys : list pubkey) (m : Z) : res output :=
  let! s := multisig_create pubkeys m in Ok (Output C_MultisigOutput amount s).
(** bitforge/transaction/output.py:106-114 [DataOutput.create] *)
Definition data_output_create (data : pyb) : res output :=
  if pyb_len data >? 80 then Err E_Out_TooMuchData else
  let! s := op_return_create data in Ok (Output C_DataOutput 0 s).

(** ** transaction.py *)

(** bitforge/transaction/transaction.py:11-13 *)
Record tx := Tx { tx_inputs : list input; tx_outputs : list output; tx_lock_time : Z; tx_version : Z }.

(** Objects that may be handed to the constructor. *)
Inductive obj := O_In (i : input) | O_Out (o : output) | O_Other.

(** [NotAnInput(object)] formats [repr(object)], which for an Input or Output prints every
    instruction of its script with its opcode name: KeyError for unnamed opcodes
    (script.py:156-157, instruction.py:128-132).  The repr of other objects is taken to
    succeed. *)
Definition script_repr_fails (s : script) : bool :=
  negb (forallb (fun i => is_ok (op_name (i_op i))) (s_ins s)).
Definition obj_error (o : obj) (e : exn) : exn :=
  let bad := match o with
             | O_In i => script_repr_fails (in_script i)
             | O_Out o => script_repr_fails (out_script o)
             | O_Other => false
             end in
  if bad then E_KeyError else e.

(** bitforge/tools.py:46-60 [enforce_all] with [instance_of] *)
Fixpoint all_inputs (l : list obj) : res (list input) :=
  match l with
  | [] => Ok []
  | O_In i :: r => let! t := all_inputs r in Ok (i :: t)
  | o :: _ => Err (obj_error o E_Tx_NotAnInput)
  end.
Fixpoint all_outputs (l : list obj) : res (list output) :=
  match l with
  | [] => Ok []
  | O_Out o :: r => let! t := all_outputs r in Ok (o :: t)
  | o :: _ => Err (obj_error o E_Tx_NotAnOutput)
  end.

(** bitforge/transaction/transaction.py:37-50 [Transaction.__new__].  Simplification:
    [lock_time] and [version] are ints. *)
Definition new_tx (inputs outputs : list obj) (lock_time version : Z) : res tx :=
  if blen inputs =? 0 then Err E_Tx_NoInputs else
  let! ins := all_inputs inputs in
  if blen outputs =? 0 then Err E_Tx_NoOutputs else
  let! outs := all_outputs outputs in
  if negb ((0 <=? lock_time) && (lock_time <=? 0xFFFFFFFF)) then Err E_Tx_InvalidLockTime else
  Ok (Tx ins outs lock_time version).

Fixpoint concat_bytes {A} (f : A -> res bytes) (l : list A) : res bytes :=
  match l with
  | [] => Ok []
  | a :: r => let! x := f a in let! y := concat_bytes f r in Ok (x ++ y)
  end.

(** bitforge/transaction/transaction.py:52-75 [to_bytes] *)
Definition tx_to_bytes (t : tx) : res bytes :=
  let buffer := buf_write (encode_int (tx_version t) false (Some 4%nat)) [] in
  let buffer := buf_write (encode_varint (blen (tx_inputs t))) buffer in
  let! b := concat_bytes input_to_bytes (tx_inputs t) in
  let buffer := buf_write b buffer in
  let buffer := buf_write (encode_varint (blen (tx_outputs t))) buffer in
  let! b := concat_bytes output_to_bytes (tx_outputs t) in
  let buffer := buf_write b buffer in
  let buffer := buf_write (encode_int (tx_lock_time t) false (Some 4%nat)) buffer in
  Ok buffer.

(** bitforge/transaction/transaction.py:77-78 [to_hex] *)
Definition tx_to_hex (t : tx) : res bytes := let! b := tx_to_bytes t in Ok (encode_hex b).

(** bitforge/transaction/transaction.py:80-84 [get_id_bytes], [get_id] *)
Definition tx_get_id_bytes (t : tx) : res bytes := let! b := tx_to_bytes t in Ok (sha256 (sha256 b)).
Definition tx_get_id (t : tx) : res bytes := let! b := tx_get_id_bytes t in Ok (encode_hex b).

(** bitforge/transaction/transaction.py:86-87 [replace_inputs] *)
Definition tx_replace_inputs (t : tx) (ins : list input) : res tx :=
  new_tx (map O_In ins) (map O_Out (tx_outputs t)) (tx_lock_time t) (tx_version t).

(** [for i, input in enumerate(self.inputs)] from index [k] *)
Fixpoint mapi_from {A B} (f : Z -> A -> B) (k : Z) (l : list A) : list B :=
  match l with [] => [] | a :: r => f k a :: mapi_from f (k + 1) r end.

(** Python [l[i]] for any int [i] *)
Definition py_index {A} (l : list A) (i : Z) : res A :=
  let j := if i <? 0 then i + blen l else i in
  if (j <? 0) || (blen l <=? j) then Err E_IndexError
  else match nth_error l (Z.to_nat j) with Some a => Ok a | None => Err E_IndexError end.

(** bitforge/transaction/transaction.py:89-115, steps 1 and 2 of [sign]: the serialised
    message before hashing. *)
Definition tx_preimage (t : tx) (index sigtype : Z) : res bytes :=
  let! simplified := tx_replace_inputs t
    (mapi_from (fun i inp => if negb (i =? index) then input_remove_script inp else inp) 0 (tx_inputs t)) in
  let! payload := tx_to_bytes simplified in
  Ok (payload ++ encode_int sigtype false (Some 4%nat)).

(** bitforge/transaction/transaction.py:89-132 [sign] *)
Definition tx_sign (sg : signer) (t : tx) (keys : list privkey) (index sigtype : Z) : res tx :=
  let! pre := tx_preimage t index sigtype in
  let payload := sha256 (sha256 pre) in
  let! inp := py_index (tx_inputs t) index in
  let! signed := input_sign sg inp keys payload sigtype in
  tx_replace_inputs t (mapi_from (fun i inp => if i =? index then signed else inp) 0 (tx_inputs t)).

(** [[ f(buffer) for i in range(n) ]].  In Python 2 [range] builds a list: OverflowError
    above 2^63-1 and MemoryError when the list cannot be allocated at all, which on a
    64-bit build is from 2^60 elements on.  Simplification: below that memory suffices. *)
Fixpoint read_times {A} (f : rd A) (n : nat) : rd (list A) :=
  match n with
  | O => rret []
  | S n' => do! a := f in do! r := read_times f n' in rret (a :: r)
  end.
Definition read_range {A} (f : rd A) (n : Z) : rd (list A) :=
  if n >? 2 ^ 63 - 1 then rerr E_OverflowError
  else if n >=? 2 ^ 60 then rerr E_MemoryError
  else read_times f (Z.to_nat n).

(** bitforge/transaction/transaction.py:135-149 [from_bytes] *)
Definition tx_from_buffer : rd tx :=
  do! version := buf_read 4 in
  do! ninputs := read_varint in
  do! inputs := read_range (input_from_buffer C_Input) ninputs in
  do! noutputs := read_varint in
  do! outputs := read_range output_from_buffer noutputs in
  do! lock_time := buf_read 4 in
  lift (new_tx (map O_In inputs) (map O_Out outputs) (decode_int lock_time false) (decode_int version false)).
Definition tx_from_bytes (b : bytes) : res tx := fst (tx_from_buffer b).

(** bitforge/transaction/transaction.py:151-153 [from_hex] *)
Definition tx_from_hex (s : bytes) : res tx := let! b := decode_hex s in tx_from_bytes b.
