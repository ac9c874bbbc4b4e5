(** Model of the texts the library shows: the messages of its exceptions (bitforge/errors.py and
    the exception classes of the other files) and the [__repr__] methods.
    Texts are lists of the characters below 256.  Simplification: the names of networks are ASCII
    (Python 2 encodes what a [__repr__] returns as ASCII). *)
From Coq Require Import String.
From Verif Require Import Base M_Hash M_Codec M_Keys M_EC M_Script M_Tx M_HD M_Unit M_URI.
Open Scope Z_scope.

(** ** Python 2.7's [repr] of builtin values *)

(** [str(z)] of an int or long *)
Definition sdec (z : Z) : bytes := if z <? 0 then x2d :: dec (- z) else dec z.
(** [repr] of a number; a long ends in L.  [lg] says which numbers are longs.
    Simplification: that depends on the value only. *)
Definition repr_num (lg : Z -> bool) (z : Z) : bytes := sdec z ++ (if lg z then [x4c] else []).
Definition repr_bool (b : bool) : bytes := if b then txt "True" else txt "False".

Definition has_byte (c : byte) (b : bytes) : bool := existsb (byte_eqb c) b.
(** a single quote is preferred *)
Definition quote_of (b : bytes) : byte := if has_byte x27 b && negb (has_byte x22 b) then x22 else x27.
(** One character inside a literal; [q] is the quote that needs a backslash. *)
Definition esc (q c : byte) : bytes :=
  if byte_eqb c q || byte_eqb c x5c then [x5c; c]
  else if byte_eqb c x09 then [x5c; x74]
  else if byte_eqb c x0a then [x5c; x6e]
  else if byte_eqb c x0d then [x5c; x72]
  else if (bZ c <? 32) || (127 <=? bZ c) then x5c :: x78 :: encode_hex [c]
  else [c].
Definition repr_str (b : bytes) : bytes := let q := quote_of b in q :: flat_map (esc q) b ++ [q].
(** [repr] of a unicode text *)
Definition repr_text (t : bytes) : bytes := x75 :: repr_str t.
(** [repr] of a bytearray: the single quote is escaped even between double quotes *)
Definition repr_ba (b : bytes) : bytes :=
  let q := quote_of b in txt "bytearray(b" ++ (q :: flat_map (esc x27) b ++ [q]) ++ txt ")".
Definition repr_pyb (p : pyb) : bytes := match p with Str b => repr_str b | BA b => repr_ba b end.

(** [sep.join(l)] *)
Fixpoint join_with (sep : bytes) (l : list bytes) : bytes :=
  match l with [] => [] | [a] => a | a :: r => a ++ sep ++ join_with sep r end.
Definition repr_tuple (l : list bytes) : bytes :=
  match l with [a] => txt "(" ++ a ++ txt ",)" | _ => txt "(" ++ join_with (txt ", ") l ++ txt ")" end.
Definition repr_list (l : list bytes) : bytes := txt "[" ++ join_with (txt ", ") l ++ txt "]".
Fixpoint all_ok {A} (l : list (res A)) : res (list A) :=
  match l with [] => Ok [] | a :: r => let! x := a in let! xs := all_ok r in Ok (x :: xs) end.

(** ** The [__repr__] methods *)

(** bitforge/script/opcode.py:219-223 *)
Definition repr_opcode (o : opcode) : res bytes :=
  if is_const_push o then Ok (txt "<Opcode PUSH " ++ dec (bZ o) ++ txt " BYTES>")
  else let! n := op_name o in Ok (txt "<Opcode " ++ dec (bZ o) ++ txt ": " ++ n ++ txt ">").

(** bitforge/script/instruction.py:128-132; [encode_hex(None)] is a TypeError *)
Definition repr_instr (i : instr) : res bytes :=
  if is_push (i_op i) then
    let! n := op_name (i_op i) in
    match i_data i with
    | None => Err E_TypeError
    | Some d => Ok (txt "<Instruction: " ++ n ++ txt " '" ++ encode_hex (pyb_bytes d) ++ txt "'>")
    end
  else let! n := op_name (i_op i) in Ok (txt "<Instruction: " ++ n ++ txt ">").

(** bitforge/script/script.py:156-157: [str] of the tuple of instructions *)
Definition repr_script (s : script) : res bytes :=
  let! l := all_ok (map repr_instr (s_ins s)) in Ok (repr_tuple l).

(** bitforge/privkey.py:140-141, pubkey.py:86-87, address.py:120-121 *)
Definition repr_privkey (k : privkey) : bytes :=
  txt "<PrivateKey: " ++ priv_to_hex k ++ txt ", network: " ++ n_name (k_network k) ++ txt ">".
Definition repr_pubkey (k : pubkey) : res bytes :=
  let! h := pk_to_hex k in Ok (txt "<PublicKey: " ++ h ++ txt ", network: " ++ n_name (pk_network k) ++ txt ">").
Definition type_name (t : addr_type) : bytes := match t with T_PublicKey => txt "PublicKey" | T_Script => txt "Script" end.
Definition repr_address (a : address) : res bytes :=
  let! s := addr_to_string a in
  Ok (txt "<Address: " ++ s ++ txt ", type: " ++ type_name (a_type a) ++ txt ", network: " ++ n_name (a_network a) ++ txt ">").

(** bitforge/unit.py:36-40, uri.py:65-66 *)
Definition unit_str (u : unit_t) : bytes := sdec (u_satoshis u) ++ txt " satoshis".
Definition repr_unit (u : unit_t) : bytes := txt "<Unit: " ++ unit_str u ++ txt ">".
Definition repr_uri (u : uri_t) : res bytes := let! t := to_uri u in Ok (txt "<URI: " ++ t ++ txt ">").

(** What a named tuple inherits: its name and its fields with their [repr]
    (networks.py:12, hdprivkey.py:24, hdpubkey.py:16, input.py:14, output.py:10, transaction.py:11). *)
Definition fields (l : list (bytes * bytes)) : bytes := join_with (txt ", ") (map (fun f => fst f ++ txt "=" ++ snd f) l).
Definition repr_named (name : bytes) (l : list (bytes * bytes)) : bytes := name ++ txt "(" ++ fields l ++ txt ")".

Definition repr_network (lg : Z -> bool) (n : network) : bytes :=
  repr_named (txt "Network")
    [(txt "name", repr_text (n_name n)); (txt "pubkeyhash", repr_num lg (n_pubkeyhash n));
     (txt "wif_prefix", repr_num lg (n_wif_prefix n)); (txt "scripthash", repr_num lg (n_scripthash n));
     (txt "hd_public_key", repr_num lg (n_hd_public_key n)); (txt "hd_private_key", repr_num lg (n_hd_private_key n));
     (txt "magic", repr_num lg (n_magic n)); (txt "port", repr_num lg (n_port n));
     (txt "seeds", repr_list (map repr_text (n_seeds n)))].
Definition repr_hdpriv (lg : Z -> bool) (k : hdpriv) : bytes :=
  repr_named (txt "HDPrivateKey")
    [(txt "privkey", repr_privkey (hv_privkey k)); (txt "chain", repr_str (hv_chain k));
     (txt "depth", repr_num lg (hv_depth k)); (txt "index", repr_num lg (hv_index k));
     (txt "parent", repr_num lg (hv_parent k)); (txt "network", repr_network lg (hv_network k));
     (txt "fingerprint", repr_num lg (hv_fingerprint k))].
Definition repr_hdpub (lg : Z -> bool) (k : hdpub) : res bytes :=
  let! p := repr_pubkey (hp_pubkey k) in
  Ok (repr_named (txt "HDPublicKey")
    [(txt "pubkey", p); (txt "chain", repr_str (hp_chain k));
     (txt "depth", repr_num lg (hp_depth k)); (txt "index", repr_num lg (hp_index k));
     (txt "parent", repr_num lg (hp_parent k)); (txt "network", repr_network lg (hp_network k));
     (txt "fingerprint", repr_num lg (hp_fingerprint k))]).
(** [id] is [repr] of the id, a text or a [str] *)
Definition repr_input (lg : Z -> bool) (id : bytes -> bytes) (i : input) : res bytes :=
  let! s := repr_script (in_script i) in
  Ok (repr_named (txt "Input")
    [(txt "tx_id", id (in_tx_id i)); (txt "txo_index", repr_num lg (in_index i)); (txt "script", s);
     (txt "seq_number", repr_num lg (in_seq i))]).
Definition repr_output (lg : Z -> bool) (o : output) : res bytes :=
  let! s := repr_script (out_script o) in
  Ok (repr_named (txt "Output") [(txt "amount", repr_num lg (out_amount o)); (txt "script", s)]).
Definition repr_tx (lg : Z -> bool) (id : bytes -> bytes) (t : tx) : res bytes :=
  let! l := all_ok (map (repr_input lg id) (tx_inputs t)) in
  let! m := all_ok (map (repr_output lg) (tx_outputs t)) in
  Ok (repr_named (txt "Transaction")
    [(txt "inputs", repr_tuple l); (txt "outputs", repr_tuple m);
     (txt "lock_time", repr_num lg (tx_lock_time t)); (txt "version", repr_num lg (tx_version t))]).

(** ** Exceptions *)

(** The exception classes: errors.py:3-36, encoding.py:9-26, networks.py:7, tools.py:9-17,
    privkey.py:33-55, pubkey.py:24-37, address.py:20-42, opcode.py:160-179, instruction.py:15-30,
    script.py:21-37, input.py:21-32, output.py:17-104, transaction.py:18-34. *)
Inductive ecls :=
  | X_Bitforge | X_Object | X_String | X_Number | X_KeyValue
  | X_Encoding | X_Base58h | X_Hex | X_ScriptNumber | X_MinimalScriptNumber
  | X_Network
  | X_Buffer | X_InsufficientData
  | X_Priv | X_Priv_Secret | X_Priv_Network | X_Priv_WifLength | X_Priv_CompressionByte | X_Priv_Base58h
  | X_Priv_Hex | X_Priv_BinaryLength
  | X_Pub | X_Pub_Pair | X_Pub_Network | X_Pub_Binary | X_Pub_Hex
  | X_Addr | X_Addr_Network | X_Addr_Version | X_Addr_Base58h | X_Addr_Hex | X_Addr_HashLength
  | X_Addr_BinaryLength | X_Addr_Type
  | X_Op | X_Op_Name | X_Op_Number | X_Op_ConstPushLength | X_Op_PushLength | X_Op_TypeError | X_Op_WrongType
  | X_Ins | X_Ins_TypeError | X_Ins_UnexpectedData | X_Ins_DataLength
  | X_Scr | X_Scr_MissingPushArguments | X_Scr_PushSize | X_Scr_PushData | X_Scr_PushDataLength | X_Scr_OpcodeName
  | X_In | X_In_SignatureMethod | X_In_SignatureCount
  | X_Out | X_Out_TooMuchData
  | X_Tx | X_Tx_NoInputs | X_Tx_NoOutputs | X_Tx_NotAnInput | X_Tx_NotAnOutput | X_Tx_LockTime.

(** The class statements.  In a class body a name means the outer one until it is bound there
    (privkey.py:48 [class InvalidBase58h(Error, InvalidBase58h)]).  [Exception] is left out. *)
Definition bases (c : ecls) : list ecls :=
  match c with
  | X_Bitforge => []
  | X_Object | X_String | X_Number | X_KeyValue => [X_Bitforge]
  | X_Encoding => [X_String]
  | X_Base58h | X_Hex | X_ScriptNumber | X_MinimalScriptNumber => [X_Encoding]
  | X_Network => [X_KeyValue]
  | X_Buffer | X_Priv | X_Pub | X_Addr | X_Op | X_Ins | X_Scr | X_In | X_Out | X_Tx => [X_Bitforge]
  | X_InsufficientData => [X_Buffer]
  | X_Priv_Secret => [X_Priv; X_Number]
  | X_Priv_Network => [X_Priv; X_Network]
  | X_Priv_WifLength | X_Priv_CompressionByte | X_Priv_BinaryLength => [X_Priv; X_String]
  | X_Priv_Base58h => [X_Priv; X_Base58h]
  | X_Priv_Hex => [X_Priv; X_Hex]
  | X_Pub_Pair => [X_Pub; X_Object]
  | X_Pub_Network => [X_Pub; X_Network]
  | X_Pub_Binary => [X_Pub; X_String]
  | X_Pub_Hex => [X_Pub; X_Hex]
  | X_Addr_Network => [X_Addr; X_Network]
  | X_Addr_Version => [X_Addr; X_Number]
  | X_Addr_Base58h => [X_Addr; X_Base58h]
  | X_Addr_Hex => [X_Addr; X_Hex]
  | X_Addr_HashLength | X_Addr_BinaryLength => [X_Addr; X_String]
  | X_Addr_Type => [X_Addr; X_Object]
  | X_Op_Name => [X_Op; X_String]
  | X_Op_Number | X_Op_ConstPushLength | X_Op_PushLength => [X_Op; X_Number]
  | X_Op_TypeError | X_Op_WrongType => [X_Op; X_Object]
  | X_Ins_TypeError | X_Ins_UnexpectedData => [X_Ins; X_Object]
  | X_Ins_DataLength => [X_Ins]
  | X_Scr_MissingPushArguments | X_Scr_PushSize | X_Scr_PushData | X_Scr_OpcodeName => [X_Scr; X_String]
  | X_Scr_PushDataLength => [X_Scr; X_Number]
  | X_In_SignatureMethod | X_In_SignatureCount => [X_In]
  | X_Out_TooMuchData => [X_Out; X_Number]
  | X_Tx_NoInputs | X_Tx_NoOutputs => [X_Tx]
  | X_Tx_NotAnInput | X_Tx_NotAnOutput => [X_Tx; X_Object]
  | X_Tx_LockTime => [X_Tx; X_Number]
  end.

(** The docstring of each class itself: a class without one has [__doc__] None.  All are texts
    ([unicode_literals]). *)
Definition doc (c : ecls) : option bytes :=
  match c with
  | X_Encoding => Some (txt "The string {string} is not properly encoded")
  | X_Base58h => Some (txt "The string {string} is not valid base58/check")
  | X_Hex => Some (txt "The string {string} is not valid hexadecimal")
  | X_ScriptNumber => Some (txt "The script number {string} is too long")
  | X_MinimalScriptNumber => Some (txt "The script number {string} is not minimally encoded")
  | X_Network => Some (txt "No network with an attribute '{key}' of value {value}")
  | X_InsufficientData => Some (txt "Attempted to read {requested} bytes, but buffer only has {remaining}")
  | X_Priv_Secret => Some (txt "Invalid secret for PrivateKey: {number}")
  | X_Priv_Network => Some (txt "No network for PrivateKey with an attribute '{key}' of value {value}")
  | X_Priv_WifLength => Some (txt "The PrivateKey WIF {string} should be 33 (uncompressed) or 34 (compressed) bytes long, not {length}")
  | X_Priv_CompressionByte => Some (txt "The length of the PrivateKey WIF {string} suggests it's compressed, but it doesn't end in '\1'")
  | X_Priv_Base58h => Some (txt "The PrivateKey string {string} is not valid base58/check")
  | X_Priv_Hex => Some (txt "The PrivateKey string {string} is not valid hexadecimal")
  | X_Priv_BinaryLength => Some (txt "The PrivateKey's binary secret {string} should be 32 bytes long, not {length}")
  | X_Pub_Pair => Some (txt "The PublicKey pair {object} is invalid (not a point of the curve)")
  | X_Pub_Network => Some (txt "No network for PublicKey with an attribute '{key}' of value {value}")
  | X_Pub_Binary => Some (txt "The buffer {string} is not in any recognized format")
  | X_Pub_Hex => Some (txt "The PublicKey string {string} is not valid hexadecimal")
  | X_Addr_Network => Some (txt "No network for Address with an attribute '{key}' of value {value}")
  | X_Addr_Version => Some (txt "Failed to detect Address type and network from version number {number}")
  | X_Addr_Base58h => Some (txt "The Address string {string} is not valid base58/check")
  | X_Addr_Hex => Some (txt "The Address string {string} is not valid hexadecimal")
  | X_Addr_HashLength => Some (txt "The address hash {string} should be 20 bytes long, not {length}")
  | X_Addr_BinaryLength => Some (txt "The binary address {string} should be 21 bytes long, not {length}")
  | X_Addr_Type => Some (txt "Address type {object} is not an instance of Address.Type")
  | X_Op_Name => Some (txt "No known operation named {string}")
  | X_Op_Number => Some (txt "No known operation numbered {number}")
  | X_Op_ConstPushLength => Some (txt "No constant push opcode can push {number} bytes (only [1-75])")
  | X_Op_PushLength => Some (txt "No Opcode can push {number} bytes")
  | X_Op_TypeError => Some (txt "Opcodes are initialized from numbers and names, got object {object}")
  | X_Op_WrongType => Some (txt "Opcode {object.name} does not support this operation")
  | X_Ins_TypeError => Some (txt "Expected an Opcode, got {object}")
  | X_Ins_UnexpectedData => Some (txt "Instruction got data with opcode {object}, which does not push data")
  | X_Ins_DataLength => Some (txt "Opcode {opcode} can't push {data_length} bytes (max/exactly {data_length_max})")
  | X_Scr_MissingPushArguments => Some (txt "Missing arguments for {string} operation")
  | X_Scr_PushSize => Some (txt "Push size must be a number, got {string}")
  | X_Scr_PushData => Some (txt "Push data must be hex encoded and start with 0x, got {string}")
  | X_Scr_PushDataLength => Some (txt "Push data length doesn't match push size, got {number}")
  | X_Scr_OpcodeName => Some (txt "No known operation named {string}")
  | X_In_SignatureMethod => Some (txt "This abstract Input doesn't know how to sign itself. You should use an Input subclass, such as AddressInput")
  | X_In_SignatureCount => Some (txt "This Input requires {required} keys to sign, but {provided} were provided")
  | X_Out_TooMuchData => Some (txt "DataOutputs can carry at most 80 bytes, but {number} were passed in")
  | X_Tx_NoInputs => Some (txt "No Inputs were given to create this Transaction")
  | X_Tx_NoOutputs => Some (txt "No Outputs were given to create this Transaction")
  | X_Tx_NotAnInput => Some (txt "Transaction expected instances of Input, got {object} instead")
  | X_Tx_NotAnOutput => Some (txt "Transaction expected instances of Input, got {object} instead")
  | X_Tx_LockTime => Some (txt "Transaction lock_time must be between 0 and 4294967295 (2^32 - 1), not {number}")
  | _ => None
  end.

Definition ecls_eq_dec (a b : ecls) : {a = b} + {a <> b}.
Proof. decide equality. Defined.
Definition ecls_eqb (a b : ecls) : bool := if ecls_eq_dec a b then true else false.

(** Python's method resolution order (C3).  [merge] takes the first head that is in no tail. *)
Definition in_tail (c : ecls) (ls : list (list ecls)) : bool :=
  existsb (fun l => match l with [] => false | _ :: t => existsb (ecls_eqb c) t end) ls.
Fixpoint good_head (ls all : list (list ecls)) : option ecls :=
  match ls with
  | [] => None
  | [] :: r => good_head r all
  | (c :: _) :: r => if in_tail c all then good_head r all else Some c
  end.
Definition drop_head (c : ecls) (l : list ecls) : list ecls :=
  match l with [] => [] | d :: t => if ecls_eqb c d then t else l end.
Fixpoint merge (fuel : nat) (ls : list (list ecls)) : option (list ecls) :=
  match fuel with
  | O => None
  | S f =>
      if forallb (fun l => match l with [] => true | _ => false end) ls then Some []
      else match good_head ls ls with
           | None => None
           | Some c => match merge f (map (drop_head c) ls) with Some r => Some (c :: r) | None => None end
           end
  end.
Fixpoint mro_f (fuel : nat) (c : ecls) : option (list ecls) :=
  match fuel with
  | O => None
  | S f =>
      let ms := map (mro_f f) (bases c) in
      if existsb (fun m => match m with None => true | _ => false end) ms then None
      else match merge 16 (map (fun m => match m with Some l => l | None => [] end) ms ++ [bases c]) with
           | Some r => Some (c :: r)
           | None => None
           end
  end.
Definition mro (c : ecls) : option (list ecls) := mro_f 8 c.
(** [issubclass(c, d)] *)
Definition subclass (c d : ecls) : bool := match mro c with Some l => existsb (ecls_eqb d) l | None => false end.

(** The [prepare] methods: errors.py:10-36, tools.py:15-17, instruction.py:27-30, input.py:30-32 *)
Inductive prep := P_nothing | P_object | P_string | P_number | P_keyvalue | P_buffer | P_length | P_count.
Definition own_prepare (c : ecls) : option prep :=
  match c with
  | X_Bitforge => Some P_nothing
  | X_Object => Some P_object
  | X_String => Some P_string
  | X_Number => Some P_number
  | X_KeyValue => Some P_keyvalue
  | X_InsufficientData => Some P_buffer
  | X_Ins_DataLength => Some P_length
  | X_In_SignatureCount => Some P_count
  | _ => None
  end.
Fixpoint first_own (l : list ecls) : option prep :=
  match l with [] => None | c :: r => match own_prepare c with Some p => Some p | None => first_own r end end.
Definition prepare_of (c : ecls) : option prep := match mro c with Some l => first_own l | None => None end.

(** Arguments of an exception.  [A_obj r] is any other object without a length: [r] is what
    turning it into a text gives. *)
Inductive arg :=
  | A_num (z : Z) | A_str (p : pyb) | A_text (t : bytes) | A_opcode (o : opcode)
  | A_obj (r : res bytes).

Definition is_ascii (b : bytes) : bool := forallb (fun c => bZ c <? 128) b.
(** What replaces [{field}]: the value as a text; a [str] or bytearray is decoded as ASCII. *)
Definition show (a : arg) : res bytes :=
  match a with
  | A_num z => Ok (sdec z)
  | A_str p => if is_ascii (pyb_bytes p) then Ok (pyb_bytes p) else Err E_UnicodeDecodeError
  | A_text t => Ok t
  | A_opcode o => repr_opcode o
  | A_obj r => r
  end.

(** The attributes set by [prepare]; a wrong number of arguments is a TypeError, and so is the
    length of something that has none. *)
Definition prepare (p : prep) (l : list arg) : res (list (bytes * arg)) :=
  match p, l with
  | P_nothing, [] => Ok []
  | P_object, [a] => Ok [(txt "object", a)]
  | P_string, [A_str s] => Ok [(txt "string", A_text (repr_pyb s)); (txt "length", A_num (pyb_len s))]
  | P_string, [A_text t] => Ok [(txt "string", A_text (repr_text t)); (txt "length", A_num (blen t))]
  | P_string, [A_opcode o] => let! _ := repr_opcode o in Err E_TypeError
  | P_string, [A_obj r] => let! _ := r in Err E_TypeError
  | P_string, [A_num _] => Err E_TypeError
  | P_number, [a] => Ok [(txt "number", a)]
  | P_keyvalue, [k; v] => Ok [(txt "key", k); (txt "value", v)]
  | P_buffer, [a; b] => Ok [(txt "remaining", a); (txt "requested", b)]
  | P_length, [a; b; c] => Ok [(txt "opcode", a); (txt "data_length", b); (txt "data_length_max", c)]
  | P_count, [a; b] => Ok [(txt "required", a); (txt "provided", b)]
  | _, _ => Err E_TypeError
  end.

(** The text of one replacement field: a name, or a name and an attribute; of the arguments only
    Opcodes have one that is asked for ([name]).  An unknown name is a KeyError.  Simplification: the attribute
    [cause] (errors.py:5), which no template uses, is left out. *)
Fixpoint split_dot (f : bytes) : bytes * option bytes :=
  match f with
  | [] => ([], None)
  | c :: r => if byte_eqb c x2e then ([], Some r) else let (a, b) := split_dot r in (c :: a, b)
  end.
Fixpoint lookup (d : list (bytes * arg)) (k : bytes) : res arg :=
  match d with [] => Err E_KeyError | (n, a) :: r => if bytes_eqb n k then Ok a else lookup r k end.
Definition field_text (d : list (bytes * arg)) (f : bytes) : res bytes :=
  let (k, at_) := split_dot f in
  let! a := lookup d k in
  match at_ with
  | None => show a
  | Some n => match a with
              | A_opcode o => if bytes_eqb n (txt "name") then op_name o else Err E_AttributeError
              | _ => Err E_AttributeError
              end
  end.

(** [template.format( **d )] without conversions or format specifications.  [st] is None
    between fields and the part of the field read so far inside one. *)
Fixpoint fmt (d : list (bytes * arg)) (st : option bytes) (t : bytes) : res bytes :=
  match st, t with
  | None, [] => Ok []
  | Some _, [] => Err E_ValueError
  | None, c :: r =>
      if byte_eqb c x7b then
        match r with
        | c' :: r' => if byte_eqb c' x7b then let! s := fmt d None r' in Ok (c :: s) else fmt d (Some []) r
        | [] => Err E_ValueError
        end
      else if byte_eqb c x7d then
        match r with
        | c' :: r' => if byte_eqb c' x7d then let! s := fmt d None r' in Ok (c :: s) else Err E_ValueError
        | [] => Err E_ValueError
        end
      else let! s := fmt d None r in Ok (c :: s)
  | Some f, c :: r =>
      if byte_eqb c x7d then let! v := field_text d f in let! s := fmt d None r in Ok (v ++ s)
      else fmt d (Some (f ++ [c])) r
  end.

(** bitforge/errors.py:4-8 [BitforgeError.__init__]: the message.  [None.format] is an
    AttributeError. *)
Definition build (c : ecls) (l : list arg) : res bytes :=
  match prepare_of c with
  | None => Err E_AttributeError
  | Some p =>
      let! d := prepare p l in
      match doc c with
      | None => Err E_AttributeError
      | Some t => fmt d None t
      end
  end.

(** [str(e)] (errors.py:13-14): the message encoded as ASCII; None is UnicodeEncodeError. *)
Definition exc_str (m : bytes) : option bytes := if is_ascii m then Some m else None.

(** The class of each exception of the model; None for builtin exceptions and those of utils. *)
Definition class_of (e : exn) : option ecls :=
  match e with
  | E_InvalidBase58h => Some X_Base58h | E_InvalidHex => Some X_Hex
  | E_InvalidScriptNumber => Some X_ScriptNumber | E_InvalidMinimalScriptNumber => Some X_MinimalScriptNumber
  | E_InsufficientData _ _ => Some X_InsufficientData
  | E_UnknownNetwork => Some X_Network
  | E_Priv_InvalidSecret => Some X_Priv_Secret | E_Priv_UnknownNetwork => Some X_Priv_Network
  | E_Priv_InvalidWifLength => Some X_Priv_WifLength | E_Priv_InvalidCompressionByte => Some X_Priv_CompressionByte
  | E_Priv_InvalidBase58h => Some X_Priv_Base58h | E_Priv_InvalidHex => Some X_Priv_Hex
  | E_Priv_InvalidBinaryLength => Some X_Priv_BinaryLength
  | E_Pub_InvalidPair => Some X_Pub_Pair | E_Pub_UnknownNetwork => Some X_Pub_Network
  | E_Pub_InvalidBinary => Some X_Pub_Binary | E_Pub_InvalidHex => Some X_Pub_Hex
  | E_Addr_UnknownNetwork => Some X_Addr_Network | E_Addr_InvalidVersion => Some X_Addr_Version
  | E_Addr_InvalidBase58h => Some X_Addr_Base58h | E_Addr_InvalidHex => Some X_Addr_Hex
  | E_Addr_InvalidHashLength => Some X_Addr_HashLength | E_Addr_InvalidBinaryLength => Some X_Addr_BinaryLength
  | E_Addr_InvalidType => Some X_Addr_Type
  | E_Op_UnknownOpcodeNumber => Some X_Op_Number | E_Op_UnknownOpcodeName => Some X_Op_Name
  | E_Op_InvalidConstPushLength => Some X_Op_ConstPushLength | E_Op_InvalidPushLength => Some X_Op_PushLength
  | E_Op_WrongOpcodeType => Some X_Op_WrongType
  | E_Ins_InvalidDataLength => Some X_Ins_DataLength | E_Ins_UnexpectedData => Some X_Ins_UnexpectedData
  | E_Scr_MissingPushArguments => Some X_Scr_MissingPushArguments | E_Scr_InvalidPushSize => Some X_Scr_PushSize
  | E_Scr_InvalidPushData => Some X_Scr_PushData | E_Scr_InvalidPushDataLength => Some X_Scr_PushDataLength
  | E_Scr_UnknownOpcodeName => Some X_Scr_OpcodeName
  | E_Tx_NoInputs => Some X_Tx_NoInputs | E_Tx_NotAnInput => Some X_Tx_NotAnInput
  | E_Tx_NoOutputs => Some X_Tx_NoOutputs | E_Tx_NotAnOutput => Some X_Tx_NotAnOutput
  | E_Tx_InvalidLockTime => Some X_Tx_LockTime
  | E_In_UnknownSignatureMethod => Some X_In_SignatureMethod
  | E_In_InvalidSignatureCount _ _ => Some X_In_SignatureCount
  | E_Out_TooMuchData => Some X_Out_TooMuchData
  | _ => None
  end.
