(** C131: which error is reported. *)
From Coq Require Import String.
From Coq Require Import ZArith List Lia Strings.Byte.
From Verif Require Import Base M_Codec M_Keys M_Script M_Interp S_Codec S_Script S_Interp S_ErrCode P_ErrCode.
Import ListNotations.
Open Scope Z_scope.

Theorem C131_address : forall ph v ty e, new_address ph v ty = Err e <->
  ((forall n, find v (txt "name") <> Ok n) /\ e = E_Addr_UnknownNetwork) \/
  (exists n, find v (txt "name") = Ok n /\
    ((ty = TA_other /\ e = E_Addr_InvalidType) \/ (ty <> TA_other /\ List.length (pyb_bytes ph) <> 20%nat /\ e = E_Addr_InvalidHashLength))).
Proof. exact address_err. Qed.
Print Assumptions C131_address.

Theorem C131_hex : forall s e, decode_hex s = Err e <-> (forall b, ~ hex_text s b) /\ e = E_InvalidHex.
Proof. exact decode_hex_fails. Qed.
Print Assumptions C131_hex.

Theorem C131_address_hex : forall s e, addr_from_hex s = Err e <->
  ((forall b, ~ hex_text s b) /\ e = E_Addr_InvalidHex) \/ (exists b, hex_text s b /\ addr_from_bytes (Str b) = Err e).
Proof. exact address_hex_err. Qed.
Print Assumptions C131_address_hex.

Example C131_address_ex : new_address (Str []) (VText (txt "moonnet")) TA_other = Err E_Addr_UnknownNetwork
  /\ new_address (Str []) (VNet livenet) TA_other = Err E_Addr_InvalidType
  /\ new_address (Str [x01]) (VNet livenet) (TA T_Script) = Err E_Addr_InvalidHashLength
  /\ addr_from_hex (txt "0g") = Err E_Addr_InvalidHex /\ addr_from_hex (txt "00") = Err E_Addr_InvalidBinaryLength.
Proof. repeat split. Qed.

(** CHECKLOCKTIMEVERIFY: the sign of the operand decides *)
Theorem C131_lock_time : forall st i s x n, executing st -> room st -> plain 177 i -> ~ (flag (s_flags st) LOCKTIME /\ flag (s_flags st) DISCOURAGE) ->
  s_stack st = s ++ [x] -> time_operand (minimal_of st) x n ->
  step st i = Ok (Fail (if n <? 0 then IE_NegativeLockTime else IE_UnsatisfiedLockTime)).
Proof. exact cltv_step. Qed.
Print Assumptions C131_lock_time.

Theorem C131_lock_time_discouraged : forall st i, executing st -> room st -> plain 177 i -> flag (s_flags st) LOCKTIME -> flag (s_flags st) DISCOURAGE ->
  step st i = Ok (Fail IE_DiscourageNops).
Proof. exact cltv_discouraged. Qed.
Print Assumptions C131_lock_time_discouraged.

Example C131_lock_time_ex : let st x f := ready (Script None [Instr xb1 None]) [BA x] f in
  step (st [x81] 512) (Instr xb1 None) = Ok (Fail IE_NegativeLockTime) /\ step (st [x01; x02; x03; x04] 0) (Instr xb1 None) = Ok (Fail IE_UnsatisfiedLockTime)
  /\ step (st [x81] 640) (Instr xb1 None) = Ok (Fail IE_DiscourageNops) /\ step (st [x01; x02; x03; x04; x05] 512) (Instr xb1 None) = Err E_InvalidScriptNumber.
Proof. repeat split. Qed.

(** CHECKMULTISIG and CHECKMULTISIGVERIFY *)
Theorem C131_key_count : forall st i z s k n, executing st -> room st -> plain z i -> z = 174 \/ z = 175 -> s_stack st = s ++ [k] ->
  operand (minimal_of st) k n -> ~ 0 <= n <= 20 -> step st i = Ok (Fail IE_PubkeyCount).
Proof. exact multisig_keys. Qed.
Print Assumptions C131_key_count.

Theorem C131_key_operations : forall st i z s k n, executing st -> room st -> plain z i -> z = 174 \/ z = 175 -> s_stack st = s ++ [k] ->
  operand (minimal_of st) k n -> 0 <= n <= 20 -> 201 < s_nop st + 1 + n -> step st i = Ok (Fail IE_OpCount).
Proof. exact multisig_ops. Qed.
Print Assumptions C131_key_operations.

Theorem C131_signature_count : forall st i z s k g keys, executing st -> room st -> plain z i -> z = 174 \/ z = 175 ->
  s_stack st = s ++ [g] ++ keys ++ [k] -> operand (minimal_of st) k (blen keys) -> blen keys <= 20 -> s_nop st + 1 + blen keys <= 201 ->
  forall v, operand (minimal_of st) g v -> ~ 0 <= v <= blen keys -> step st i = Ok (Fail IE_SigCount).
Proof. exact multisig_after. Qed.
Print Assumptions C131_signature_count.

Theorem C131_null_dummy : forall st i z s dummy g keys k, executing st -> room st -> plain z i -> z = 174 \/ z = 175 ->
  s_stack st = s ++ [dummy; g] ++ keys ++ [k] -> operand (minimal_of st) k (blen keys) -> blen keys <= 20 -> s_nop st + 1 + blen keys <= 201 ->
  operand (minimal_of st) g 0 -> flag (s_flags st) NULLDUMMY -> pyb_len dummy <> 0 -> step st i = Ok (Fail IE_NullDummy).
Proof. exact multisig_dummy. Qed.
Print Assumptions C131_null_dummy.

Example C131_multisig_ex : let st s n f := Interp s [] 0 0 n [] IE_None f (Script None [Instr xae None]) in
  step (st [BA [x15]] 0 0) (Instr xae None) = Ok (Fail IE_PubkeyCount) /\ step (st [BA [x81]] 0 0) (Instr xaf None) = Ok (Fail IE_PubkeyCount)
  /\ step (st [BA [x02]] 199 0) (Instr xae None) = Ok (Fail IE_OpCount)
  /\ step (st [BA [x02]; BA [x07]; BA [x01]] 0 0) (Instr xae None) = Ok (Fail IE_SigCount)
  /\ step (st [BA [x05]; BA []; BA [x07]; BA [x01]] 0 16) (Instr xae None) = Ok (Fail IE_NullDummy)
  /\ step (st [BA [x05]; BA []; BA [x07]; BA [x01]] 0 0) (Instr xae None) = Ok (Next (Interp [BA [x01]] [] 1 0 2 [] IE_None 0 (Script None [Instr xae None]))).
Proof. repeat split. Qed.

(** pushes of data under MINIMALDATA *)
Theorem C131_minimal_push : forall st i d, executing st -> pushes_data i d -> flag (s_flags st) MINIMALDATA ->
  ((exists b, d = Str b /\ has_own_opcode b) /\ step st i = Ok (Fail IE_MinimalData)) \/
  (~ (exists b, d = Str b /\ has_own_opcode b) /\ step st i = Err E_AttributeError).
Proof. exact push_refused. Qed.
Print Assumptions C131_minimal_push.

Example C131_minimal_push_ex : let st := ready (Script None []) [] 64 in
  step st (Instr x01 (Some (Str [x10]))) = Ok (Fail IE_MinimalData) /\ step st (Instr x01 (Some (Str [x81]))) = Ok (Fail IE_MinimalData)
  /\ step st (Instr x01 (Some (Str [x11]))) = Err E_AttributeError /\ step st (Instr x01 (Some (BA [x10]))) = Err E_AttributeError.
Proof. repeat split. Qed.

(** the size of the stacks is looked at after the last instruction only *)
Theorem C131_stack_size : forall st, evaluate st = Ok (Fail IE_StackSize) <->
  exists b st', script_to_bytes (s_script st) = Ok b /\ blen b <= 10000 /\ run (s_ins (s_script st)) st = Ok (Next st') /\ 1000 < blen (s_stack st') + blen (s_alt st').
Proof. exact evaluate_size. Qed.
Print Assumptions C131_stack_size.

Example C131_stack_size_ex : evaluate (ready (Script None [Instr x00 None]) (repeat (BA []) 1000) 0) = Ok (Fail IE_StackSize)
  /\ exists st, evaluate (ready (Script None [Instr x00 None; Instr x75 None]) (repeat (BA []) 1000) 0) = Ok (Next st).
Proof. split; [vm_compute; reflexivity|eexists; vm_compute; reflexivity]. Qed.
