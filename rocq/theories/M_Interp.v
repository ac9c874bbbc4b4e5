(** Model of bitforge/script/interpreter.py. *)
From Verif Require Import Base M_Hash M_Codec M_Keys M_EC M_Script.
Open Scope Z_scope.

(** bitforge/script/opcode.py:12-154, the constants used by the interpreter (those of
    M_Script.v excepted). *)
Definition OP_CAT : opcode := x7e.
Definition OP_SUBSTR : opcode := x7f.
Definition OP_LEFT : opcode := x80.
Definition OP_RIGHT : opcode := x81.
Definition OP_INVERT : opcode := x83.
Definition OP_AND : opcode := x84.
Definition OP_OR : opcode := x85.
Definition OP_XOR : opcode := x86.
Definition OP_2MUL : opcode := x8d.
Definition OP_2DIV : opcode := x8e.
Definition OP_MUL : opcode := x95.
Definition OP_DIV : opcode := x96.
Definition OP_MOD : opcode := x97.
Definition OP_LSHIFT : opcode := x98.
Definition OP_RSHIFT : opcode := x99.
Definition OP_IF : opcode := x63.
Definition OP_ENDIF : opcode := x68.
Definition OP_2 : opcode := x52.
Definition OP_3 : opcode := x53.
Definition OP_4 : opcode := x54.
Definition OP_5 : opcode := x55.
Definition OP_6 : opcode := x56.
Definition OP_7 : opcode := x57.
Definition OP_8 : opcode := x58.
Definition OP_9 : opcode := x59.
Definition OP_10 : opcode := x5a.
Definition OP_11 : opcode := x5b.
Definition OP_12 : opcode := x5c.
Definition OP_13 : opcode := x5d.
Definition OP_14 : opcode := x5e.
Definition OP_15 : opcode := x5f.
Definition OP_NOP : opcode := x61.
Definition OP_CHECKLOCKTIMEVERIFY : opcode := xb1.
Definition OP_NOP1 : opcode := xb0.
Definition OP_NOP3 : opcode := xb2.
Definition OP_NOP4 : opcode := xb3.
Definition OP_NOP5 : opcode := xb4.
Definition OP_NOP6 : opcode := xb5.
Definition OP_NOP7 : opcode := xb6.
Definition OP_NOP8 : opcode := xb7.
Definition OP_NOP9 : opcode := xb8.
Definition OP_NOP10 : opcode := xb9.
Definition OP_NOTIF : opcode := x64.
Definition OP_ELSE : opcode := x67.
Definition OP_VERIFY : opcode := x69.
Definition OP_TOALTSTACK : opcode := x6b.
Definition OP_FROMALTSTACK : opcode := x6c.
Definition OP_2DROP : opcode := x6d.
Definition OP_2DUP : opcode := x6e.
Definition OP_3DUP : opcode := x6f.
Definition OP_2OVER : opcode := x70.
Definition OP_2ROT : opcode := x71.
Definition OP_2SWAP : opcode := x72.
Definition OP_IFDUP : opcode := x73.
Definition OP_DEPTH : opcode := x74.
Definition OP_DROP : opcode := x75.
Definition OP_NIP : opcode := x77.
Definition OP_OVER : opcode := x78.
Definition OP_PICK : opcode := x79.
Definition OP_ROLL : opcode := x7a.
Definition OP_ROT : opcode := x7b.
Definition OP_SWAP : opcode := x7c.
Definition OP_TUCK : opcode := x7d.
Definition OP_SIZE : opcode := x82.
Definition OP_1ADD : opcode := x8b.
Definition OP_1SUB : opcode := x8c.
Definition OP_NEGATE : opcode := x8f.
Definition OP_ABS : opcode := x90.
Definition OP_NOT : opcode := x91.
Definition OP_0NOTEQUAL : opcode := x92.
Definition OP_ADD : opcode := x93.
Definition OP_SUB : opcode := x94.
Definition OP_BOOLAND : opcode := x9a.
Definition OP_BOOLOR : opcode := x9b.
Definition OP_NUMEQUAL : opcode := x9c.
Definition OP_NUMEQUALVERIFY : opcode := x9d.
Definition OP_NUMNOTEQUAL : opcode := x9e.
Definition OP_LESSTHAN : opcode := x9f.
Definition OP_GREATERTHAN : opcode := xa0.
Definition OP_LESSTHANOREQUAL : opcode := xa1.
Definition OP_GREATERTHANOREQUAL : opcode := xa2.
Definition OP_MIN : opcode := xa3.
Definition OP_MAX : opcode := xa4.
Definition OP_WITHIN : opcode := xa5.
Definition OP_RIPEMD160 : opcode := xa6.
Definition OP_SHA1 : opcode := xa7.
Definition OP_SHA256 : opcode := xa8.
Definition OP_HASH256 : opcode := xaa.
Definition OP_CODESEPARATOR : opcode := xab.
Definition OP_CHECKSIGVERIFY : opcode := xad.
Definition OP_CHECKMULTISIGVERIFY : opcode := xaf.

(** [opcode in [..]] *)
Definition op_in (o : opcode) (l : list opcode) : bool := existsb (op_eqb o) l.

(** The values of [self.errstr], one constructor per SCRIPT_ERR_* text; [IE_None] is ''.
    [IE_Unknown e] is 'SCRIPT_ERR_UNKNOWN_ERROR: ' followed by the exception's message. *)
Inductive ierr :=
  | IE_None | IE_SigPushOnly | IE_EvalFalseNoResult | IE_EvalFalseInStack | IE_ScriptSize
  | IE_StackSize | IE_Unknown (e : exn) | IE_Unbalanced | IE_PushSize | IE_OpCount
  | IE_Disabled | IE_MinimalData | IE_DiscourageNops | IE_InvalidStack | IE_NegativeLockTime
  | IE_UnsatisfiedLockTime | IE_Verify | IE_OpReturn | IE_InvalidAltStack | IE_EqualVerify
  | IE_NumEqualVerify | IE_CheckSigVerify | IE_PubkeyCount | IE_SigCount | IE_NullDummy
  | IE_CheckMultisigVerify | IE_BadOpcode.

(** bitforge/script/interpreter.py:19-27 and 45-48: the attributes.  Stacks are Python lists
    (last element on top) of byte strings.  [Interpreter.true]/[false] are Buffers, a
    bytearray subclass that is never changed in place: represented as [BA].  [tx] and [nin]
    are stored but never read before an exception (lines 638, 643), so they are left out;
    building the default Transaction of line 46 succeeds. *)
Record interp := Interp {
  s_stack : list pyb; s_alt : list pyb; s_pc : Z; s_begin : Z; s_nop : Z;
  s_vf : list bool; s_errstr : ierr; s_flags : Z; s_script : script }.

(** bitforge/script/interpreter.py:19-27 [initialize] *)
Definition initialize (st : interp) : interp := Interp [] [] 0 0 0 [] IE_None 0 (s_script st).

(** Attribute assignments *)
Definition set_stack (st : interp) (l : list pyb) : interp :=
  Interp l (s_alt st) (s_pc st) (s_begin st) (s_nop st) (s_vf st) (s_errstr st) (s_flags st) (s_script st).
Definition set_alt (st : interp) (l : list pyb) : interp :=
  Interp (s_stack st) l (s_pc st) (s_begin st) (s_nop st) (s_vf st) (s_errstr st) (s_flags st) (s_script st).
Definition set_pc (st : interp) (n : Z) : interp :=
  Interp (s_stack st) (s_alt st) n (s_begin st) (s_nop st) (s_vf st) (s_errstr st) (s_flags st) (s_script st).
Definition set_begin (st : interp) (n : Z) : interp :=
  Interp (s_stack st) (s_alt st) (s_pc st) n (s_nop st) (s_vf st) (s_errstr st) (s_flags st) (s_script st).
Definition set_nop (st : interp) (n : Z) : interp :=
  Interp (s_stack st) (s_alt st) (s_pc st) (s_begin st) n (s_vf st) (s_errstr st) (s_flags st) (s_script st).
Definition set_vf (st : interp) (l : list bool) : interp :=
  Interp (s_stack st) (s_alt st) (s_pc st) (s_begin st) (s_nop st) l (s_errstr st) (s_flags st) (s_script st).
Definition set_flags (st : interp) (n : Z) : interp :=
  Interp (s_stack st) (s_alt st) (s_pc st) (s_begin st) (s_nop st) (s_vf st) (s_errstr st) n (s_script st).
Definition set_script (st : interp) (s : script) : interp :=
  Interp (s_stack st) (s_alt st) (s_pc st) (s_begin st) (s_nop st) (s_vf st) (s_errstr st) (s_flags st) s.

(** bitforge/script/interpreter.py:790-836 *)
Definition MAX_SCRIPT_ELEMENT_SIZE : Z := 520.
Definition VERIFY_P2SH : Z := 1.
Definition VERIFY_NULLDUMMY : Z := 16.
Definition VERIFY_SIGPUSHONLY : Z := 32.
Definition VERIFY_MINIMALDATA : Z := 64.
Definition VERIFY_DISCOURAGE_NOPS : Z := 128.
Definition VERIFY_CLTV : Z := 512.
(** [flags & F] as a truth value; [flags] is any int *)
Definition has_flag (flags f : Z) : bool := negb (Z.land flags f =? 0).

(** bitforge/script/interpreter.py:783-788 *)
Definition bool_bytes (b : bool) : pyb := BA (if b then [x01] else []).
Definition false_bytes : pyb := BA [].

(** bitforge/script/interpreter.py:767-779 [cast_to_bool]: the loop tests [bytes[0]] in every
    round. *)
Fixpoint cast_loop (l : bytes) (rounds i : nat) : bool :=
  match rounds with
  | O => false
  | S r => if negb (bZ (nth 0 l x00) =? 0)
           then negb ((Z.of_nat i =? blen l - 1) && (bZ (nth i l x00) =? 128))
           else cast_loop l r (S i)
  end.
Definition cast_to_bool (p : pyb) : bool := cast_loop (pyb_bytes p) (length (pyb_bytes p)) 0.

(** [encode_script_number] pushes a bytearray. *)
Definition num (n : Z) : pyb := BA (encode_script_number n).
Definition b2z (b : bool) : Z := if b then 1 else 0.

(** What [step] does when it does not raise: go on with a changed state, or set errstr (when
    not [IE_None]) and return False.  Simplification: the rest of the state left behind by a
    failing step is dropped; [verify] starts by re-initialising it. *)
Inductive outcome := Next (st : interp) | Fail (e : ierr).

(** [if len(self.stack) < n: self.errstr = ...; return False] *)
Definition need (st : interp) (n : Z) (k : res outcome) : res outcome :=
  if blen (s_stack st) <? n then Ok (Fail IE_InvalidStack) else k.
Definition go (st : interp) (l : list pyb) : res outcome := Ok (Next (set_stack st l)).
(** [x1, .., xn = self.stack[-n:]] of a stack with at least n items; the [_] cases below are
    the ValueError of a failing unpacking. *)
Definition unpack_error : res outcome := Err E_ValueError.

(** bitforge/script/interpreter.py:211-249; [check_lock_time] (758) returns None *)
Definition do_cltv (st : interp) (minimal : bool) : res outcome :=
  if has_flag (s_flags st) VERIFY_CLTV && has_flag (s_flags st) VERIFY_DISCOURAGE_NOPS
  then Ok (Fail IE_DiscourageNops) else
  need st 1 (match last_n 1 (s_stack st) with
  | [x] => let! n := decode_script_number x minimal 5 in
           if n <? 0 then Ok (Fail IE_NegativeLockTime) else Ok (Fail IE_UnsatisfiedLockTime)
  | _ => unpack_error end).

(** bitforge/script/interpreter.py:251-254 *)
Definition do_nop_n (st : interp) : res outcome :=
  if has_flag (s_flags st) VERIFY_DISCOURAGE_NOPS then Ok (Fail IE_DiscourageNops) else Ok (Next st).

(** bitforge/script/interpreter.py:256-270 *)
Definition do_if (st : interp) (f_exec : bool) (o : opcode) : res outcome :=
  if f_exec then
    if blen (s_stack st) <? 1 then Ok (Fail IE_Unbalanced) else
    match last_n 1 (s_stack st) with
    | [x] => let v := cast_to_bool x in
             let v := if op_eqb o OP_NOTIF then negb v else v in
             let st := set_stack st (drop_last 1 (s_stack st)) in
             Ok (Next (set_vf st (s_vf st ++ [v])))
    | _ => unpack_error end
  else Ok (Next (set_vf st (s_vf st ++ [false]))).
(** bitforge/script/interpreter.py:272-277 *)
Definition do_else (st : interp) : res outcome :=
  if blen (s_vf st) =? 0 then Ok (Fail IE_Unbalanced) else
  match last_n 1 (s_vf st) with
  | [v] => Ok (Next (set_vf st (drop_last 1 (s_vf st) ++ [negb v])))
  | _ => unpack_error end.
(** bitforge/script/interpreter.py:279-284 *)
Definition do_endif (st : interp) : res outcome :=
  if blen (s_vf st) =? 0 then Ok (Fail IE_Unbalanced) else
  Ok (Next (set_vf st (drop_last 1 (s_vf st)))).

(** bitforge/script/interpreter.py:286-299 *)
Definition do_verify (st : interp) : res outcome :=
  need st 1 (match last_n 1 (s_stack st) with
  | [x] => if cast_to_bool x then go st (drop_last 1 (s_stack st)) else Ok (Fail IE_Verify)
  | _ => unpack_error end).

(** bitforge/script/interpreter.py:305-319 *)
Definition do_toalt (st : interp) : res outcome :=
  need st 1 (Ok (Next (set_stack (set_alt st (s_alt st ++ last_n 1 (s_stack st))) (drop_last 1 (s_stack st))))).
Definition do_fromalt (st : interp) : res outcome :=
  if blen (s_alt st) <? 1 then Ok (Fail IE_InvalidAltStack) else
  Ok (Next (set_alt (set_stack st (s_stack st ++ last_n 1 (s_alt st))) (drop_last 1 (s_alt st)))).

(** bitforge/script/interpreter.py:321-372 *)
Definition do_2drop (st : interp) : res outcome := need st 2 (go st (drop_last 2 (s_stack st))).
Definition do_2dup (st : interp) : res outcome :=
  need st 2 (match last_n 2 (s_stack st) with
  | [x1; x2] => go st (s_stack st ++ [x1; x2]) | _ => unpack_error end).
Definition do_3dup (st : interp) : res outcome :=
  need st 3 (match last_n 3 (s_stack st) with
  | [x1; x2; x3] => go st (s_stack st ++ [x1; x2; x3]) | _ => unpack_error end).
Definition do_2over (st : interp) : res outcome :=
  need st 4 (match last_n 4 (s_stack st) with
  | [x1; x2; x3; x4] => go st (s_stack st ++ [x1; x2]) | _ => unpack_error end).
Definition do_2rot (st : interp) : res outcome :=
  need st 6 (match last_n 6 (s_stack st) with
  | [x1; x2; x3; x4; x5; x6] => go st (drop_last 6 (s_stack st) ++ [x3; x4; x5; x6; x1; x2])
  | _ => unpack_error end).
Definition do_2swap (st : interp) : res outcome :=
  need st 4 (match last_n 4 (s_stack st) with
  | [x1; x2; x3; x4] => go st (drop_last 4 (s_stack st) ++ [x3; x4; x1; x2]) | _ => unpack_error end).

(** bitforge/script/interpreter.py:374-383 *)
Definition do_ifdup (st : interp) : res outcome :=
  need st 1 (match last_n 1 (s_stack st) with
  | [x] => if cast_to_bool x then go st (s_stack st ++ [x]) else Ok (Next st)
  | _ => unpack_error end).
(** bitforge/script/interpreter.py:385-387 *)
Definition do_depth (st : interp) : res outcome := go st (s_stack st ++ [num (blen (s_stack st))]).
(** bitforge/script/interpreter.py:389-396: [pop()] and then [stack[:-1]] *)
Definition do_drop (st : interp) : res outcome :=
  need st 1 (let l := drop_last 1 (s_stack st) in go st (drop_last 1 l)).
(** bitforge/script/interpreter.py:398-421 *)
Definition do_dup (st : interp) : res outcome := need st 1 (go st (s_stack st ++ last_n 1 (s_stack st))).
Definition do_nip (st : interp) : res outcome :=
  need st 2 (match last_n 2 (s_stack st) with
  | [x1; x2] => go st (drop_last 2 (s_stack st) ++ [x2]) | _ => unpack_error end).
Definition do_over (st : interp) : res outcome :=
  need st 2 (match last_n 2 (s_stack st) with
  | [x1; x2] => go st (s_stack st ++ [x1]) | _ => unpack_error end).
(** bitforge/script/interpreter.py:423-440; [stack[-n-1]] and [stack.pop(-n-1)] count from
    the end *)
Definition do_pick_roll (st : interp) (minimal roll : bool) : res outcome :=
  need st 2 (match last_n 1 (s_stack st) with
  | [b] =>
      let stack := drop_last 1 (s_stack st) in
      let! n := decode_script_number b minimal 4 in
      if (n <? 0) || (n >=? blen stack) then Ok (Fail IE_InvalidStack) else
      let i := (length stack - Z.to_nat n - 1)%nat in
      match nth_error stack i with
      | Some x => let stack := if roll then firstn i stack ++ skipn (S i) stack else stack in
                  go st (stack ++ [x])
      | None => Err E_IndexError
      end
  | _ => unpack_error end).
(** bitforge/script/interpreter.py:442-469 *)
Definition do_rot (st : interp) : res outcome :=
  need st 3 (match last_n 3 (s_stack st) with
  | [x1; x2; x3] => go st (drop_last 3 (s_stack st) ++ [x2; x3; x1]) | _ => unpack_error end).
Definition do_swap (st : interp) : res outcome :=
  need st 2 (match last_n 2 (s_stack st) with
  | [x1; x2] => go st (drop_last 2 (s_stack st) ++ [x2; x1]) | _ => unpack_error end).
Definition do_tuck (st : interp) : res outcome :=
  need st 2 (match last_n 2 (s_stack st) with
  | [x1; x2] => go st (drop_last 2 (s_stack st) ++ [x2; x1; x2]) | _ => unpack_error end).
(** bitforge/script/interpreter.py:471-478 *)
Definition do_size (st : interp) : res outcome :=
  need st 1 (match last_n 1 (s_stack st) with
  | [x] => go st (s_stack st ++ [num (pyb_len x)]) | _ => unpack_error end).
(** bitforge/script/interpreter.py:480-496 *)
Definition do_equal (st : interp) (verify : bool) : res outcome :=
  need st 2 (match last_n 2 (s_stack st) with
  | [x1; x2] =>
      let e := pyb_eqb x1 x2 in
      let stack := drop_last 2 (s_stack st) ++ [bool_bytes e] in
      if verify then (if e then go st (drop_last 1 stack) else Ok (Fail IE_EqualVerify)) else go st stack
  | _ => unpack_error end).

(** bitforge/script/interpreter.py:507-523; [abs(-1)] is the code's *)
Definition unary (o : opcode) (n : Z) : Z :=
  if op_eqb o OP_1ADD then n + 1
  else if op_eqb o OP_1SUB then n - 1
  else if op_eqb o OP_NEGATE then - n
  else if op_eqb o OP_ABS then Z.abs (-1)
  else if op_eqb o OP_NOT then b2z (n =? 0)
  else b2z (negb (n =? 0)).
(** bitforge/script/interpreter.py:498-525 *)
Definition do_unary (st : interp) (minimal : bool) (o : opcode) : res outcome :=
  need st 1 (match last_n 1 (s_stack st) with
  | [b] => let! n := decode_script_number b minimal 4 in
           go st (drop_last 1 (s_stack st) ++ [num (unary o n)])
  | _ => unpack_error end).

(** bitforge/script/interpreter.py:544-578; booleans encode as 0 and 1 *)
Definition binary (o : opcode) (a b : Z) : Z :=
  if op_eqb o OP_ADD then a + b
  else if op_eqb o OP_SUB then a - b
  else if op_eqb o OP_BOOLAND then b2z (negb (a =? 0) && negb (b =? 0))
  else if op_eqb o OP_BOOLOR then b2z (negb (a =? 0) || negb (b =? 0))
  else if op_in o [OP_NUMEQUAL; OP_NUMEQUALVERIFY] then b2z (a =? b)
  else if op_eqb o OP_NUMNOTEQUAL then b2z (negb (a =? b))
  else if op_eqb o OP_LESSTHAN then b2z (a <? b)
  else if op_eqb o OP_GREATERTHAN then b2z (a >? b)
  else if op_eqb o OP_LESSTHANOREQUAL then b2z (a <=? b)
  else if op_eqb o OP_GREATERTHANOREQUAL then b2z (a >=? b)
  else if op_eqb o OP_MIN then Z.min a b
  else Z.max a b.
(** bitforge/script/interpreter.py:527-587 *)
Definition do_binary (st : interp) (minimal : bool) (o : opcode) : res outcome :=
  need st 2 (match last_n 2 (s_stack st) with
  | [x1; x2] =>
      let! a := decode_script_number x1 minimal 4 in
      let! b := decode_script_number x2 minimal 4 in
      let r := num (binary o a b) in
      let stack := drop_last 2 (s_stack st) ++ [r] in
      if op_eqb o OP_NUMEQUALVERIFY
      then (if cast_to_bool r then go st (drop_last 1 stack) else Ok (Fail IE_NumEqualVerify))
      else go st stack
  | _ => unpack_error end).
(** bitforge/script/interpreter.py:589-598; [map] passes the defaults of
    [decode_script_number], not the minimal flag *)
Definition do_within (st : interp) : res outcome :=
  need st 3 (match last_n 3 (s_stack st) with
  | [x1; x2; x3] =>
      let! a := decode_script_number x1 false 4 in
      let! b := decode_script_number x2 false 4 in
      let! c := decode_script_number x3 false 4 in
      go st (drop_last 3 (s_stack st) ++ [bool_bytes ((b <=? a) && (a <? c))])
  | _ => unpack_error end).

(** bitforge/script/interpreter.py:600-618; [hash160] of bitforge/encoding.py:131-132 calls
    [.digest()] on a str *)
Definition do_hash (st : interp) (o : opcode) : res outcome :=
  need st 1 (match last_n 1 (s_stack st) with
  | [x] =>
      let b := pyb_bytes x in
      let! r := (if op_eqb o OP_RIPEMD160 then Ok (ripemd160 b)
                 else if op_eqb o OP_SHA1 then Ok (sha1 b)
                 else if op_eqb o OP_SHA256 then Ok (sha256 b)
                 else if op_eqb o OP_HASH160 then Err E_AttributeError
                 else Ok (sha256 (sha256 b))) in
      go st (drop_last 1 (s_stack st) ++ [Str r])
  | _ => unpack_error end).

(** [Script(self.script.instructions[from_instruction:])], lines 635, 691 *)
Definition subscript (st : interp) : script := Script None (skipn (Z.to_nat (s_begin st)) (s_ins (s_script st))).

(** bitforge/script/interpreter.py:624-656.  [remove_opcode_by_data] raises (C67); were it
    not to, [check_signature_encoding] (761) returns None and the step returns False without
    setting errstr. *)
Definition do_checksig (st : interp) : res outcome :=
  need st 2 (match last_n 2 (s_stack st) with
  | [sig; pub] => let! _ := script_remove_opcode_by_data (subscript st) sig in Ok (Fail IE_None)
  | _ => unpack_error end).

(** lines 693-695: one call per signature, [stack[-isig-i]] *)
Fixpoint remove_all (s : script) (sigs : list pyb) : res script :=
  match sigs with
  | [] => Ok s
  | d :: r => let! s := script_remove_opcode_by_data s d in remove_all s r
  end.
(** bitforge/script/interpreter.py:658-749; lines 699-723 are as in [do_checksig]: with a
    signature left the loop body returns False. *)
Definition do_checkmultisig (st : interp) (minimal verify : bool) : res outcome :=
  need st 1 (match last_n 1 (s_stack st) with
  | [b] =>
      let! keys := decode_script_number b minimal 4 in
      if negb ((0 <=? keys) && (keys <=? 20)) then Ok (Fail IE_PubkeyCount) else
      let st := set_nop st (s_nop st + keys) in
      if s_nop st >? 201 then Ok (Fail IE_OpCount) else
      need st (keys + 2) (match nth_error (s_stack st) (length (s_stack st) - Z.to_nat keys - 2) with
      | Some b =>
          let! sigs := decode_script_number b minimal 4 in
          if negb ((0 <=? sigs) && (sigs <=? keys)) then Ok (Fail IE_SigCount) else
          need st (keys + sigs + 3)
            (let below := drop_last (Z.to_nat keys + 2) (s_stack st) in
             let! _ := remove_all (subscript st) (rev (last_n (Z.to_nat sigs) below)) in
             if sigs >? 0 then Ok (Fail IE_None) else
             let stack := drop_last (Z.to_nat (sigs + keys + 2)) (s_stack st) in
             match last_n 1 stack with
             | [dummy] =>
                 if has_flag (s_flags st) VERIFY_NULLDUMMY && negb (pyb_len dummy =? 0)
                 then Ok (Fail IE_NullDummy) else
                 let stack := drop_last 1 stack ++ [bool_bytes true] in
                 go st (if verify then drop_last 1 stack else stack)
             | _ => Ok (Fail IE_InvalidStack)
             end)
      | None => Err E_IndexError
      end)
  | _ => unpack_error end).

(** bitforge/script/interpreter.py:201-754, the chain of [elif]s *)
Definition dispatch (st : interp) (minimal f_exec : bool) (o : opcode) : res outcome :=
  if op_in o [OP_1NEGATE; OP_1; OP_2; OP_3; OP_4; OP_5; OP_6; OP_7; OP_8; OP_9; OP_10; OP_11; OP_12; OP_13; OP_14; OP_15; OP_16]
  then go st (s_stack st ++ [num (bZ o - (bZ OP_1 - 1))])
  else if op_eqb o OP_NOP then Ok (Next st)
  else if op_eqb o OP_CHECKLOCKTIMEVERIFY then do_cltv st minimal
  else if op_in o [OP_NOP1; OP_NOP3; OP_NOP4; OP_NOP5; OP_NOP6; OP_NOP7; OP_NOP8; OP_NOP9; OP_NOP10] then do_nop_n st
  else if op_in o [OP_IF; OP_NOTIF] then do_if st f_exec o
  else if op_eqb o OP_ELSE then do_else st
  else if op_eqb o OP_ENDIF then do_endif st
  else if op_eqb o OP_VERIFY then do_verify st
  else if op_eqb o OP_RETURN then Ok (Fail IE_OpReturn)
  else if op_eqb o OP_TOALTSTACK then do_toalt st
  else if op_eqb o OP_FROMALTSTACK then do_fromalt st
  else if op_eqb o OP_2DROP then do_2drop st
  else if op_eqb o OP_2DUP then do_2dup st
  else if op_eqb o OP_3DUP then do_3dup st
  else if op_eqb o OP_2OVER then do_2over st
  else if op_eqb o OP_2ROT then do_2rot st
  else if op_eqb o OP_2SWAP then do_2swap st
  else if op_eqb o OP_IFDUP then do_ifdup st
  else if op_eqb o OP_DEPTH then do_depth st
  else if op_eqb o OP_DROP then do_drop st
  else if op_eqb o OP_DUP then do_dup st
  else if op_eqb o OP_NIP then do_nip st
  else if op_eqb o OP_OVER then do_over st
  else if op_in o [OP_PICK; OP_ROLL] then do_pick_roll st minimal (op_eqb o OP_ROLL)
  else if op_eqb o OP_ROT then do_rot st
  else if op_eqb o OP_SWAP then do_swap st
  else if op_eqb o OP_TUCK then do_tuck st
  else if op_eqb o OP_SIZE then do_size st
  else if op_in o [OP_EQUAL; OP_EQUALVERIFY] then do_equal st (op_eqb o OP_EQUALVERIFY)
  else if op_in o [OP_1ADD; OP_1SUB; OP_NEGATE; OP_ABS; OP_NOT; OP_0NOTEQUAL] then do_unary st minimal o
  else if op_in o [OP_ADD; OP_SUB; OP_BOOLAND; OP_BOOLOR; OP_NUMEQUAL; OP_NUMEQUALVERIFY; OP_NUMNOTEQUAL; OP_LESSTHAN;
                   OP_GREATERTHAN; OP_LESSTHANOREQUAL; OP_GREATERTHANOREQUAL; OP_MIN; OP_MAX] then do_binary st minimal o
  else if op_eqb o OP_WITHIN then do_within st
  else if op_in o [OP_RIPEMD160; OP_SHA1; OP_SHA256; OP_HASH160; OP_HASH256] then do_hash st o
  else if op_eqb o OP_CODESEPARATOR then Ok (Next (set_begin st (s_pc st)))
  else if op_in o [OP_CHECKSIG; OP_CHECKSIGVERIFY] then do_checksig st
  else if op_in o [OP_CHECKMULTISIG; OP_CHECKMULTISIGVERIFY]
  then do_checkmultisig st minimal (op_eqb o OP_CHECKMULTISIGVERIFY)
  else Ok (Fail IE_BadOpcode).

(** bitforge/script/interpreter.py:171-185 *)
Definition disabled_ops : list opcode :=
  [OP_CAT; OP_SUBSTR; OP_LEFT; OP_RIGHT; OP_INVERT; OP_AND; OP_OR; OP_XOR; OP_2MUL; OP_2DIV; OP_MUL; OP_DIV; OP_MOD;
   OP_LSHIFT; OP_RSHIFT].

(** [not instruction.data]: None or empty *)
Definition data_bytes (i : instr) : option pyb :=
  match i_data i with Some d => if pyb_len d =? 0 then None else Some d | None => None end.

(** bitforge/script/interpreter.py:190-198 *)
Definition do_push (st : interp) (minimal : bool) (i : instr) : res outcome :=
  let! m := (if minimal then is_minimal_push i else Ok true) in
  if negb m then Ok (Fail IE_MinimalData) else
  go st (s_stack st ++ [match data_bytes i with Some d => d | None => false_bytes end]).

(** bitforge/script/interpreter.py:149-756 [step], given the instruction at [pc] *)
Definition step (st : interp) (i : instr) : res outcome :=
  let minimal := has_flag (s_flags st) VERIFY_MINIMALDATA in
  let f_exec := negb (existsb negb (s_vf st)) in
  let st := set_pc st (s_pc st + 1) in
  if match data_bytes i with Some d => pyb_len d >? MAX_SCRIPT_ELEMENT_SIZE | None => false end
  then Ok (Fail IE_PushSize) else
  let counted := negb (op_leb (i_op i) OP_16) in
  let st := if counted then set_nop st (s_nop st + 1) else st in
  if counted && (s_nop st >? 201) then Ok (Fail IE_OpCount) else
  if op_in (i_op i) disabled_ops then Ok (Fail IE_Disabled) else
  if f_exec && op_leb (i_op i) OP_PUSHDATA4 then do_push st minimal i
  else if f_exec || (op_leb OP_IF (i_op i) && op_leb (i_op i) OP_ENDIF) then dispatch st minimal f_exec (i_op i)
  else Ok (Next st).

(** bitforge/script/interpreter.py:131-133, the loop: [pc] goes through the instructions one
    by one, so the remaining ones are the argument. *)
Fixpoint run (l : list instr) (st : interp) : res outcome :=
  match l with
  | [] => Ok (Next st)
  | i :: r => let! o := step st i in
              match o with Next st => run r st | Fail e => Ok (Fail e) end
  end.

(** bitforge/script/interpreter.py:120-147 [evaluate].  [to_bytes] is outside the [try];
    exceptions in the loop become a failure. *)
Definition evaluate (st : interp) : res outcome :=
  let! b := script_to_bytes (s_script st) in
  if blen b >? 10000 then Ok (Fail IE_ScriptSize) else
  match run (s_ins (s_script st)) st with
  | Err e => Ok (Fail (IE_Unknown e))
  | Ok (Fail e) => Ok (Fail e)
  | Ok (Next st) =>
      if blen (s_stack st) + blen (s_alt st) >? 1000 then Ok (Fail IE_StackSize)
      else if blen (s_vf st) >? 0 then Ok (Fail IE_Unbalanced)
      else Ok (Next st)
  end.

(** bitforge/script/interpreter.py:29-118 [verify]: the returned boolean (or exception) and
    errstr.  No class defines [is_script_hash_out] (line 83): AttributeError, so lines 84-116
    are never reached. *)
Definition verify (self : interp) (script_sig script_pubkey : script) (flags : Z) : res (bool * ierr) :=
  let st := initialize self in
  let st := set_script st script_sig in
  let st := set_flags st flags in
  if has_flag flags VERIFY_SIGPUSHONLY && negb (is_push_only (s_ins script_sig)) then Ok (false, IE_SigPushOnly) else
  let! o := evaluate st in
  match o with
  | Fail e => Ok (false, e)
  | Next st =>
      let stack := s_stack st in
      let st := initialize st in
      let st := set_script st script_pubkey in
      let st := set_stack st stack in
      let st := set_flags st flags in
      let! o := evaluate st in
      match o with
      | Fail e => Ok (false, e)
      | Next st =>
          match last_n 1 (s_stack st) with
          | [x] => if negb (cast_to_bool x) then Ok (false, IE_EvalFalseInStack)
                   else if has_flag (s_flags st) VERIFY_P2SH then Err E_AttributeError
                   else Ok (true, s_errstr st)
          | _ => Ok (false, IE_EvalFalseNoResult)
          end
      end
  end.
