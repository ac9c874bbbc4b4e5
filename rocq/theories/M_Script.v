(** Model of bitforge/script/opcode.py, instruction.py and script.py. *)
From Coq Require Import String.
From Verif Require Import Base M_Hash M_Codec M_Keys M_EC.
Open Scope Z_scope.

(** ** opcode.py *)

(** bitforge/script/opcode.py:12-154, the module constants in source order. *)
Definition op_table : list (string * Z) := ([
  ("OP_0", 0); ("OP_1", 81); ("OP_2", 82); ("OP_3", 83); ("OP_4", 84); ("OP_5", 85); ("OP_6", 86);
  ("OP_7", 87); ("OP_8", 88); ("OP_9", 89); ("OP_10", 90); ("OP_11", 91); ("OP_12", 92);
  ("OP_13", 93); ("OP_14", 94); ("OP_15", 95); ("OP_16", 96); ("OP_1NEGATE", 79); ("OP_FALSE", 0);
  ("OP_TRUE", 81); ("OP_PUSHDATA1", 76); ("OP_PUSHDATA2", 77); ("OP_PUSHDATA4", 78);
  ("OP_NOP", 97); ("OP_IF", 99); ("OP_NOTIF", 100); ("OP_ELSE", 103); ("OP_ENDIF", 104);
  ("OP_VERIFY", 105); ("OP_RETURN", 106); ("OP_TOALTSTACK", 107); ("OP_FROMALTSTACK", 108);
  ("OP_2DROP", 109); ("OP_2DUP", 110); ("OP_3DUP", 111); ("OP_2OVER", 112); ("OP_2ROT", 113);
  ("OP_2SWAP", 114); ("OP_IFDUP", 115); ("OP_DEPTH", 116); ("OP_DROP", 117); ("OP_DUP", 118);
  ("OP_NIP", 119); ("OP_OVER", 120); ("OP_PICK", 121); ("OP_ROLL", 122); ("OP_ROT", 123);
  ("OP_SWAP", 124); ("OP_TUCK", 125); ("OP_CAT", 126); ("OP_SUBSTR", 127); ("OP_LEFT", 128);
  ("OP_RIGHT", 129); ("OP_SIZE", 130); ("OP_INVERT", 131); ("OP_AND", 132); ("OP_OR", 133);
  ("OP_XOR", 134); ("OP_EQUAL", 135); ("OP_EQUALVERIFY", 136); ("OP_RESERVED1", 137);
  ("OP_RESERVED2", 138); ("OP_1ADD", 139); ("OP_1SUB", 140); ("OP_2MUL", 141); ("OP_2DIV", 142);
  ("OP_NEGATE", 143); ("OP_ABS", 144); ("OP_NOT", 145); ("OP_0NOTEQUAL", 146); ("OP_ADD", 147);
  ("OP_SUB", 148); ("OP_MUL", 149); ("OP_DIV", 150); ("OP_MOD", 151); ("OP_LSHIFT", 152);
  ("OP_RSHIFT", 153); ("OP_BOOLAND", 154); ("OP_BOOLOR", 155); ("OP_NUMEQUAL", 156);
  ("OP_NUMEQUALVERIFY", 157); ("OP_NUMNOTEQUAL", 158); ("OP_LESSTHAN", 159);
  ("OP_GREATERTHAN", 160); ("OP_LESSTHANOREQUAL", 161); ("OP_GREATERTHANOREQUAL", 162);
  ("OP_MIN", 163); ("OP_MAX", 164); ("OP_WITHIN", 165); ("OP_RIPEMD160", 166); ("OP_SHA1", 167);
  ("OP_SHA256", 168); ("OP_HASH160", 169); ("OP_HASH256", 170); ("OP_CODESEPARATOR", 171);
  ("OP_CHECKSIG", 172); ("OP_CHECKSIGVERIFY", 173); ("OP_CHECKMULTISIG", 174);
  ("OP_CHECKMULTISIGVERIFY", 175); ("OP_CHECKLOCKTIMEVERIFY", 177); ("OP_NOP1", 176);
  ("OP_NOP3", 178); ("OP_NOP4", 179); ("OP_NOP5", 180); ("OP_NOP6", 181); ("OP_NOP7", 182);
  ("OP_NOP8", 183); ("OP_NOP9", 184); ("OP_NOP10", 185); ("OP_PUBKEYHASH", 253);
  ("OP_PUBKEY", 254); ("OP_INVALIDOPCODE", 255); ("OP_RESERVED", 80)])%string.

(** An Opcode object holds a number 0..255 and compares by it (lines 184-188, 225-238):
    it is represented by the byte.  [@total_ordering] derives <=, >, >= from these. *)
Definition opcode := byte.
Definition op_eqb (a b : opcode) : bool := bZ a =? bZ b.
Definition op_leb (a b : opcode) : bool := (bZ a <? bZ b) || (bZ a =? bZ b).

(** bitforge/script/opcode.py:184-188 [Opcode.__init__] *)
Definition new_opcode (n : Z) : res opcode :=
  if negb ((0 <=? n) && (n <=? 255)) then Err E_Op_UnknownOpcodeNumber else Ok (Zb n).

(** The constants used below, as bytes. *)
Definition OP_0 : opcode := x00.
Definition OP_1 : opcode := x51.
Definition OP_16 : opcode := x60.
Definition OP_1NEGATE : opcode := x4f.
Definition OP_PUSHDATA1 : opcode := x4c.
Definition OP_PUSHDATA2 : opcode := x4d.
Definition OP_PUSHDATA4 : opcode := x4e.
Definition OP_RETURN : opcode := x6a.
Definition OP_DUP : opcode := x76.
Definition OP_EQUAL : opcode := x87.
Definition OP_EQUALVERIFY : opcode := x88.
Definition OP_HASH160 : opcode := xa9.
Definition OP_CHECKSIG : opcode := xac.
Definition OP_CHECKMULTISIG : opcode := xae.

(** bitforge/script/opcode.py:209-212 *)
Definition is_const_push (o : opcode) : bool := (1 <=? bZ o) && (bZ o <=? 75).
(** bitforge/script/opcode.py:214-217 *)
Definition is_var_push (o : opcode) : bool :=
  op_eqb o OP_PUSHDATA1 || op_eqb o OP_PUSHDATA2 || op_eqb o OP_PUSHDATA4.
(** bitforge/script/opcode.py:206-207 *)
Definition is_push (o : opcode) : bool := is_const_push o || is_var_push o.
(** bitforge/script/opcode.py:197-198 *)
Definition is_number (o : opcode) : bool := op_eqb o OP_0 || (op_leb OP_1 o && op_leb o OP_16).

Fixpoint assoc_name (t : list (string * Z)) (n : Z) : option bytes :=
  match t with
  | [] => None
  | (s, v) :: r => if v =? n then Some (txt s) else assoc_name r n
  end.
(** bitforge/script/opcode.py:320-332 [opcode_number_to_name].  Only 0 and 81 have two
    names, and lines 331-332 fix them to OP_0 and OP_1, the first in the table. *)
Definition number_to_name (n : Z) : option bytes :=
  if n =? 0 then Some (txt "OP_0") else if n =? 81 then Some (txt "OP_1") else assoc_name op_table n.

(** Decimal text of a non-negative int, [%d]. *)
Definition dec_digit (z : Z) : byte := Zb (48 + z).
Fixpoint dec_loop (fuel : nat) (n : Z) (acc : bytes) : bytes :=
  match fuel with
  | O => acc
  | S f => let acc := dec_digit (n mod 10) :: acc in
           if n <? 10 then acc else dec_loop f (n / 10) acc
  end.
Definition dec (n : Z) : bytes := dec_loop (S (Z.to_nat (Z.log2 n))) n [].

(** bitforge/script/opcode.py:190-195 [name]; KeyError for unnamed numbers *)
Definition op_name (o : opcode) : res bytes :=
  if is_const_push o then Ok (txt "_PUSH_" ++ dec (bZ o) ++ txt "_BYTES")
  else match number_to_name (bZ o) with Some n => Ok n | None => Err E_KeyError end.

(** Building [WrongOpcodeType(op)] formats [op.name]. *)
Definition wrong_opcode_type (o : opcode) : exn :=
  match op_name o with Ok _ => E_Op_WrongOpcodeType | Err e => e end.

(** bitforge/script/opcode.py:200-204 *)
Definition number_value (o : opcode) : res Z :=
  if negb (is_number o) then Err (wrong_opcode_type o)
  else Ok (if op_eqb o OP_0 then 0 else bZ o - bZ OP_1 + 1).

(** bitforge/script/opcode.py:244-249 *)
Definition for_number (n : Z) : res opcode :=
  if (0 <=? n) && (n <=? 16) then (if n =? 0 then Ok OP_0 else new_opcode (bZ OP_1 + n - 1))
  else Err E_ValueError.

Fixpoint starts_with (p s : bytes) : bool :=
  match p, s with
  | [], _ => true
  | a :: p', b :: s' => byte_eqb a b && starts_with p' s'
  | _, [] => false
  end.

Fixpoint assoc_op (t : list (string * Z)) (name : bytes) : option Z :=
  match t with
  | [] => None
  | (s, v) :: r => if bytes_eqb (txt s) name then Some v else assoc_op r name
  end.
(** bitforge/script/opcode.py:251-265 [from_name]; the module members starting with OP_
    are exactly the table, replaced by Opcode objects (lines 323-329). *)
Definition op_from_name (name : bytes) : res opcode :=
  if negb (starts_with (txt "OP_") name) then Err E_Op_UnknownOpcodeName
  else match assoc_op op_table name with Some v => new_opcode v | None => Err E_Op_UnknownOpcodeName end.

(** bitforge/script/opcode.py:292-305 [data_length_max] *)
Definition data_length_max (o : opcode) : Z :=
  if is_const_push o then bZ o
  else if is_var_push o then
    (if op_eqb o OP_PUSHDATA1 then 2 ^ 8 else if op_eqb o OP_PUSHDATA2 then 2 ^ 16 else 2 ^ 32) - 1
  else 0.

(** bitforge/script/opcode.py:307-316 [data_length_nbytes] *)
Definition data_length_nbytes (o : opcode) : res Z :=
  if negb (is_var_push o) then Err (wrong_opcode_type o)
  else Ok (if op_eqb o OP_PUSHDATA1 then 1 else if op_eqb o OP_PUSHDATA2 then 2 else 4).

(** bitforge/script/opcode.py:267-272 *)
Definition const_push_for (length : Z) : res opcode :=
  if negb ((1 <=? length) && (length <=? 75)) then Err E_Op_InvalidConstPushLength else new_opcode length.

(** bitforge/script/opcode.py:274-283 *)
Definition var_push_for (length : Z) : res opcode :=
  if length <? 1 then Err E_Op_InvalidPushLength
  else if length <=? data_length_max OP_PUSHDATA1 then Ok OP_PUSHDATA1
  else if length <=? data_length_max OP_PUSHDATA2 then Ok OP_PUSHDATA2
  else if length <=? data_length_max OP_PUSHDATA4 then Ok OP_PUSHDATA4
  else Err E_Op_InvalidPushLength.

(** bitforge/script/opcode.py:285-290 *)
Definition op_push_for (length : Z) : res opcode :=
  if length <=? 75 then const_push_for length else var_push_for length.

(** ** instruction.py *)

(** bitforge/script/instruction.py:10; [None] is Python None.  [==] (lines 122-123)
    compares opcodes and byte contents. *)
Record instr := Instr { i_op : opcode; i_data : option pyb }.
Definition instr_eqb (a b : instr) : bool :=
  op_eqb (i_op a) (i_op b) &&
  match i_data a, i_data b with
  | None, None => true | Some x, Some y => pyb_eqb x y | _, _ => false
  end.

(** [UnexpectedData(opcode)] formats [repr(opcode)], which reads the name. *)
Definition unexpected_data (o : opcode) : exn :=
  match op_name o with Ok _ => E_Ins_UnexpectedData | Err e => e end.

(** bitforge/script/instruction.py:33-48 [Instruction.__new__].  [len(None)] is a TypeError.
    Simplification: [opcode] is an Opcode and [data] None or a byte string. *)
Definition new_instr (o : opcode) (data : option pyb) : res instr :=
  if is_push o then
    match data with
    | None => Err E_TypeError
    | Some d =>
        let length := pyb_len d in
        let expect := data_length_max o in
        if (is_const_push o && negb (length =? expect))
           || (is_var_push o && negb ((0 <=? length) && (length <=? expect)))
        then Err E_Ins_InvalidDataLength
        else Ok (Instr o data)
    end
  else match data with
       | Some _ => Err (unexpected_data o)
       | None => Ok (Instr o None)
       end.

(** bitforge/script/instruction.py:50-53 [push_for] *)
Definition ins_push_for (b : pyb) : res instr :=
  let! o := op_push_for (pyb_len b) in new_instr o (Some b).

(** [decode_int(self.data[0])]: [data[0]] is a one-character string for [str], but an int
    n for [bytearray], and [bytearray(n)] is n zero bytes. *)
Definition first_int (d : pyb) : Z :=
  match d with Str (b :: _) => bZ b | _ => 0 end.

(** bitforge/script/instruction.py:58-85 [is_minimal_push]; [self.data.length] does not
    exist. *)
Definition is_minimal_push (i : instr) : res bool :=
  match i_data i with
  | None => Ok true
  | Some d =>
      let n := pyb_len d in
      if n =? 0 then Ok true
      else if (n =? 1) && ((1 <=? first_int d) && (first_int d <=? 16))
      then Ok (bZ (i_op i) =? bZ OP_1 + first_int d - 1)
      else if (n =? 1) && (first_int d =? 129) then Ok (op_eqb (i_op i) OP_1NEGATE)
      else if n <=? 75 then Err E_AttributeError
      else if n <=? 255 then Ok (op_eqb (i_op i) OP_PUSHDATA1)
      else if n <=? 65535 then Ok (op_eqb (i_op i) OP_PUSHDATA2)
      else Ok true
  end.

(** bitforge/script/instruction.py:87-104 [to_bytes].  [str.rjust(n, u'\0')] is a
    TypeError in Python 2 (the fill character must be a [str]); [str + data] has the kind
    of [data], only the content is kept. *)
Definition ins_to_bytes (i : instr) : res bytes :=
  let! opcode_byte := compat_chr (bZ (i_op i)) in
  if is_const_push (i_op i) then
    match i_data i with Some d => Ok (opcode_byte ++ pyb_bytes d) | None => Err E_TypeError end
  else if is_var_push (i_op i) then Err E_TypeError
  else Ok opcode_byte.

(** bitforge/script/instruction.py:109-120 [to_string] *)
Definition ins_to_string (i : instr) : res bytes :=
  if is_push (i_op i) then
    match i_data i with
    | None => Err E_TypeError
    | Some d =>
        let data_hex := txt "0x" ++ encode_hex (pyb_bytes d) in
        if is_const_push (i_op i) then Ok (dec (pyb_len d) ++ txt " " ++ data_hex)
        else let! n := op_name (i_op i) in Ok (n ++ txt " " ++ dec (pyb_len d) ++ txt " " ++ data_hex)
    end
  else op_name (i_op i).

(** ** script.py *)

(** The subclasses, script.py:294-301. *)
Inductive sclass := PayToPubkeyIn | PayToPubkeyOut | PayToScriptIn | PayToScriptOut | OpReturnOut | RedeemMultisig.

(** A Script object: its class ([None] is Script itself) and the tuple of instructions. *)
Record script := Script { s_class : option sclass; s_ins : list instr }.

(** Elements of [get_structure()]: the text 'PUSH' or an Opcode. *)
Inductive tok := TPush | TOp (o : opcode).
Definition tok_eqb (a b : tok) : bool :=
  match a, b with TPush, TPush => true | TOp x, TOp y => op_eqb x y | _, _ => false end.
Fixpoint toks_eqb (a b : list tok) : bool :=
  match a, b with
  | [], [] => true
  | x :: a', y :: b' => tok_eqb x y && toks_eqb a' b'
  | _, _ => false
  end.

(** bitforge/script/script.py:43-44 [get_structure] *)
Definition structure (l : list instr) : list tok :=
  map (fun i => if negb (is_push (i_op i)) then TOp (i_op i) else TPush) l.

(** ['PUSH'.is_number()] is an AttributeError *)
Definition tok_is_number (t : tok) : res bool :=
  match t with TPush => Err E_AttributeError | TOp o => Ok (is_number o) end.

(** bitforge/script/script.py:275-285 [RedeemMultisig.is_valid], left to right with
    short-circuit [and]; the indices exist since [len >= 4]. *)
Definition multisig_is_valid (st : list tok) : res bool :=
  if negb (blen st >=? 4) then Ok false else
  let! a := tok_is_number (nth 0 st TPush) in
  if negb a then Ok false else
  let! b := tok_is_number (nth (length st - 2) st TPush) in
  if negb b then Ok false else
  if negb (tok_eqb (nth (length st - 1) st TPush) (TOp OP_CHECKMULTISIG)) then Ok false else
  Ok (forallb (fun t => tok_eqb t TPush) (drop_last 2 (skipn 1 st))).

(** bitforge/script/script.py:181-183, 199-201, 215-222, 239-241, 254-256, 275-285 *)
Definition is_valid (c : sclass) (st : list tok) : res bool :=
  match c with
  | PayToPubkeyIn => Ok (toks_eqb st [TPush; TPush])
  | PayToPubkeyOut => Ok (toks_eqb st [TOp OP_DUP; TOp OP_HASH160; TPush; TOp OP_EQUALVERIFY; TOp OP_CHECKSIG])
  | PayToScriptIn =>
      Ok ((blen st >? 2) && tok_eqb (nth 0 st TPush) (TOp OP_0)
          && forallb (fun t => tok_eqb t TPush) (skipn 1 st))
  | PayToScriptOut => Ok (toks_eqb st [TOp OP_HASH160; TPush; TOp OP_EQUAL])
  | OpReturnOut => Ok (toks_eqb st [TOp OP_RETURN; TPush])
  | RedeemMultisig => multisig_is_valid st
  end.

(** bitforge/script/script.py:294-301 *)
Definition SCRIPT_SUBCLASSES : list sclass :=
  [PayToPubkeyIn; PayToPubkeyOut; PayToScriptIn; PayToScriptOut; OpReturnOut; RedeemMultisig].

Fixpoint classify_loop (cs : list sclass) (st : list tok) : res (option sclass) :=
  match cs with
  | [] => Ok None
  | c :: r => let! v := is_valid c st in if (v : bool) then Ok (Some c) else classify_loop r st
  end.
(** bitforge/script/script.py:52-58 [classify] *)
Definition classify (l : list instr) : res (option sclass) := classify_loop SCRIPT_SUBCLASSES (structure l).

(** bitforge/script/script.py:46-50 [Script.create] *)
Definition script_create (l : list instr) : res script :=
  let! c := classify l in Ok (Script c l).

(** bitforge/script/script.py:69-82, the loop of [from_buffer].  The fuel is the number
    of bytes left; each iteration reads at least one.  Data read from a Buffer is a
    bytearray. *)
Fixpoint parse_loop (fuel : nat) : rd (list instr) := fun s =>
  match s with
  | [] => (Ok [], [])
  | _ =>
    match fuel with
    | O => (Err E_Fuel, s)
    | S f =>
      (do! b := buf_read 1 in
       let opcode := Zb (decode_int b true) in
       do! data :=
         (if is_const_push opcode then
            (do! d := buf_read (bZ opcode) in rret (Some (BA d)))
          else if is_var_push opcode then
            match data_length_nbytes opcode with
            | Err e => rerr e
            | Ok n => do! length_bytes := buf_read n in
                      do! d := buf_read (decode_int length_bytes false) in
                      rret (Some (BA d))
            end
          else rret None) in
       match new_instr opcode data with
       | Err e => rerr e
       | Ok i => do! r := parse_loop f in rret (i :: r)
       end) s
    end
  end.

(** bitforge/script/script.py:60-84 [from_bytes], [from_buffer] *)
Definition script_parse (b : bytes) : res (list instr) := fst (parse_loop (length b) b).
Definition script_from_bytes (b : bytes) : res script :=
  let! l := script_parse b in script_create l.

(** [string.split(' ')] *)
Fixpoint split_sp (s : bytes) : list bytes :=
  match s with
  | [] => [[]]
  | c :: r => if byte_eqb c x20 then [] :: split_sp r
              else match split_sp r with [] => [[c]] | t :: ts => (c :: t) :: ts end
  end.

Definition is_digit (c : byte) : bool := (48 <=? bZ c) && (bZ c <=? 57).
(** [token.isdigit()], ASCII *)
Definition isdigit (s : bytes) : bool := match s with [] => false | _ => forallb is_digit s end.
(** [int(token)] on a string of digits *)
Definition int_of (s : bytes) : Z := fold_left (fun a c => 10 * a + (bZ c - 48)) s 0.

(** bitforge/script/script.py:91-98 [get_opcode] *)
Definition get_opcode (token : bytes) : res opcode :=
  match op_from_name token with
  | Ok o => Ok o
  | Err E_Op_UnknownOpcodeName =>
      if isdigit token then const_push_for (int_of token) else Err E_Scr_UnknownOpcodeName
  | Err e => Err e
  end.

(** bitforge/script/script.py:100-134, the loop of [from_string]; [next] on the exhausted
    generator becomes MissingPushArguments. *)
Fixpoint text_loop (tokens : list bytes) : res (list instr) :=
  match tokens with
  | [] => Ok []
  | token :: r =>
      let! opcode := get_opcode token in
      if is_const_push opcode then
        match r with
        | [] => Err E_Scr_MissingPushArguments
        | hex_bytes :: r' =>
            if negb (starts_with (txt "0x") hex_bytes) then Err E_Scr_InvalidPushData else
            let! b := decode_hex (skipn 2 hex_bytes) in
            let! i := new_instr opcode (Some (Str b)) in
            let! l := text_loop r' in Ok (i :: l)
        end
      else if is_var_push opcode then
        match r with
        | size_string :: hex_bytes :: r' =>
            if negb (isdigit size_string) then Err E_Scr_InvalidPushSize else
            if negb (starts_with (txt "0x") hex_bytes) then Err E_Scr_InvalidPushData else
            let! b := decode_hex (skipn 2 hex_bytes) in
            if negb (int_of size_string =? blen b) then Err E_Scr_InvalidPushDataLength else
            let! i := new_instr opcode (Some (Str b)) in
            let! l := text_loop r' in Ok (i :: l)
        | _ => Err E_Scr_MissingPushArguments
        end
      else
        let! i := new_instr opcode None in
        let! l := text_loop r in Ok (i :: l)
  end.

(** bitforge/script/script.py:86-136 [from_string].  Simplification: ASCII text
    ([unicode.isdigit] also accepts other digits). *)
Definition script_from_string (s : bytes) : res script :=
  let! l := text_loop (split_sp s) in script_create l.

(** Items of a schematic.  Simplification: tuples are pairs. *)
Inductive item :=
  | I_Op (o : opcode) | I_Num (z : Z) | I_Bytes (b : pyb)
  | I_OpData (o : opcode) (d : option pyb) | I_NumData (z : Z) (d : option pyb).

(** bitforge/script/script.py:307-326, one item; in Python 2 [bytes] is [str], so a
    bytearray falls through to the TypeError of line 324. *)
Definition to_instruction (it : item) : res instr :=
  match it with
  | I_Op o => new_instr o None
  | I_Num z => let! o := new_opcode z in new_instr o None
  | I_Bytes (Str b) => let! o := op_push_for (blen b) in new_instr o (Some (Str b))
  | I_Bytes (BA _) => Err E_TypeError
  | I_OpData o d => new_instr o d
  | I_NumData z d => let! o := new_opcode z in new_instr o d
  end.

Fixpoint to_instructions (l : list item) : res (list instr) :=
  match l with
  | [] => Ok []
  | it :: r => let! i := to_instruction it in let! t := to_instructions r in Ok (i :: t)
  end.

(** bitforge/script/script.py:138-140 [compile] *)
Definition script_compile (l : list item) : res script :=
  let! ins := to_instructions l in script_create ins.

(** bitforge/script/script.py:142-144 [push_data]: [self.instructions] is a tuple *)
Definition script_push_data (s : script) (b : pyb) : res script :=
  let! _ := ins_push_for b in Err E_AttributeError.
(** bitforge/script/script.py:146-148 [remove_opcode_by_data]: fields of a namedtuple
    cannot be assigned *)
Definition script_remove_opcode_by_data (s : script) (b : pyb) : res script :=
  let! _ := ins_push_for b in Err E_AttributeError.

(** bitforge/script/script.py:150-154 [is_push_only] *)
Definition is_push_only (l : list instr) : bool := forallb (fun i => op_leb (i_op i) OP_16) l.

(** bitforge/script/script.py:159-162 [to_bytes] *)
Fixpoint ins_list_to_bytes (l : list instr) : res bytes :=
  match l with
  | [] => Ok []
  | i :: r => let! a := ins_to_bytes i in let! b := ins_list_to_bytes r in Ok (a ++ b)
  end.
Definition script_to_bytes (s : script) : res bytes := ins_list_to_bytes (s_ins s).

(** bitforge/script/script.py:164-168 [to_hex], [to_hash] *)
Definition script_to_hex (s : script) : res bytes := let! b := script_to_bytes s in Ok (encode_hex b).
Definition script_to_hash (s : script) : res bytes :=
  let! b := script_to_bytes s in Ok (ripemd160 (sha256 b)).

(** bitforge/script/script.py:170-171 [to_string] *)
Fixpoint ins_list_to_string (l : list instr) : res bytes :=
  match l with
  | [] => Ok []
  | [i] => ins_to_string i
  | i :: r => let! a := ins_to_string i in let! b := ins_list_to_string r in Ok (a ++ txt " " ++ b)
  end.
Definition script_to_string (s : script) : res bytes := ins_list_to_string (s_ins s).

(** *** templates *)

Definition sub_create (c : sclass) (l : list item) : res script :=
  let! ins := to_instructions l in Ok (Script (Some c) ins).

(** [self.instructions[i].data] *)
Definition data_at (s : script) (i : nat) : res (option pyb) :=
  match nth_error (s_ins s) i with Some x => Ok (i_data x) | None => Err E_IndexError end.

(** [PublicKey.from_bytes(i.data)] with the default network; slicing None is a TypeError *)
Definition data_public_key (d : option pyb) : res pubkey :=
  match d with None => Err E_TypeError | Some b => pk_from_bytes b (VNet livenet) end.

(** bitforge/script/script.py:174-189 [PayToPubkeyIn] *)
Definition p2pk_in_create (k : pubkey) (signature : pyb) : res script :=
  let! kb := pk_to_bytes k in sub_create PayToPubkeyIn [I_Bytes signature; I_Bytes (Str kb)].
Definition get_public_key (s : script) : res pubkey := let! d := data_at s 1 in data_public_key d.
Definition get_signature (s : script) : res (option pyb) := data_at s 0.

(** bitforge/script/script.py:192-204 [PayToPubkeyOut] *)
Definition p2pk_out_create (a : address) : res script :=
  sub_create PayToPubkeyOut
    [I_Op OP_DUP; I_Op OP_HASH160; I_Bytes (a_phash a); I_Op OP_EQUALVERIFY; I_Op OP_CHECKSIG].
Definition get_address_hash (s : script) : res (option pyb) := data_at s 2.

(** bitforge/script/script.py:208-228 [PayToScriptIn] *)
Definition p2sh_in_create (redeem : script) (signatures : list pyb) : res script :=
  let! rb := script_to_bytes redeem in
  sub_create PayToScriptIn ([I_Op OP_0] ++ map I_Bytes signatures ++ [I_Bytes (Str rb)]).
Definition get_script (s : script) : res script :=
  match rev (s_ins s) with
  | [] => Err E_IndexError
  | i :: _ => match i_data i with None => Err E_TypeError | Some d => script_from_bytes (pyb_bytes d) end
  end.
Definition get_signatures (s : script) : list (option pyb) := map i_data (drop_last 1 (skipn 1 (s_ins s))).

(** bitforge/script/script.py:232-244 [PayToScriptOut] *)
Definition p2sh_out_create (redeem : script) : res script :=
  let! h := script_to_hash redeem in
  sub_create PayToScriptOut [I_Op OP_HASH160; I_Bytes (Str h); I_Op OP_EQUAL].
Definition get_script_hash (s : script) : res (option pyb) := data_at s 1.

(** bitforge/script/script.py:247-259 [OpReturnOut] *)
Definition op_return_create (data : pyb) : res script :=
  sub_create OpReturnOut [I_Op OP_RETURN; I_Bytes data].
Definition get_data (s : script) : res (option pyb) := data_at s 1.

Fixpoint pubkeys_bytes (l : list pubkey) : res (list bytes) :=
  match l with
  | [] => Ok []
  | k :: r => let! b := pk_to_bytes k in let! t := pubkeys_bytes r in Ok (b :: t)
  end.
Fixpoint pubkeys_of (l : list instr) : res (list pubkey) :=
  match l with
  | [] => Ok []
  | i :: r => let! k := data_public_key (i_data i) in let! t := pubkeys_of r in Ok (k :: t)
  end.
(** bitforge/script/script.py:262-291 [RedeemMultisig] *)
Definition multisig_create (pubkeys : list pubkey) (min_signatures : Z) : res script :=
  let! m := for_number min_signatures in
  let! bs := pubkeys_bytes pubkeys in
  let! n := for_number (blen pubkeys) in
  sub_create RedeemMultisig
    ([I_Op m] ++ map (fun b => I_Bytes (Str b)) bs ++ [I_Op n] ++ [I_Op OP_CHECKMULTISIG]).
Definition get_min_signatures (s : script) : res Z :=
  match s_ins s with [] => Err E_IndexError | i :: _ => number_value (i_op i) end.
Definition get_public_keys (s : script) : res (list pubkey) := pubkeys_of (drop_last 2 (skipn 1 (s_ins s))).

(** bitforge/address.py:105-108 [Address.from_script] *)
Definition addr_from_script (s : script) (net : nval) : res address :=
  let! b := script_to_bytes s in
  new_address (Str (ripemd160 (sha256 b))) net (TA T_Script).
