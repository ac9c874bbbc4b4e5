(** C44, C45, C70: how signing fails. *)
From Coq Require Import ZArith List.
From Verif Require Import Base M_Hash M_Codec M_Keys S_Keys M_Script S_Script M_Tx S_Tx P_TxSign P_SigErr.
Import ListNotations.
Open Scope Z_scope.

Theorem C44_errors : forall sg t keys k st m i e, tx_fits t -> 0 <= k -> nth_error (tx_inputs t) (Z.to_nat k) = Some i -> u32 st -> signing_message t (Z.to_nat k) st m ->
  (tx_sign sg t keys k st = Err e <-> input_sign sg i keys (sha256 (sha256 m)) st = Err e).
Proof. exact sign_errors. Qed.
Print Assumptions C44_errors.

Theorem C45_sign_errors : forall sg i k p st e, in_class_of i = C_AddressInput -> valid_key k -> blen (sg 0%nat (k_secret k) p) < 4294967295 ->
  (input_sign sg i [k] p st = Err e <-> ~ 0 <= st <= 255 /\ e = E_ValueError).
Proof. exact address_sign_errors. Qed.
Print Assumptions C45_sign_errors.

Theorem C70_errors : forall sg i keys p st e, in_class_of i = C_ScriptInput \/ in_class_of i = C_MultisigInput -> Forall well_formed (s_ins (in_script i)) ->
  (forall n s, blen (sg n s p) < 4294967295) -> (forall rb, script_to_bytes (in_script i) = Ok rb -> blen rb <= 4294967295) ->
  (input_sign sg i keys p st = Err e <->
   (keys <> [] /\ ~ 0 <= st <= 255 /\ e = E_ValueError) \/
   ((keys = [] \/ 0 <= st <= 255) /\ Exists (fun x => pushdata (i_op x)) (s_ins (in_script i)) /\ e = E_TypeError) \/
   ((keys = [] \/ 0 <= st <= 255) /\ s_ins (in_script i) = [] /\ e = E_Op_InvalidConstPushLength)).
Proof. exact script_sign_errors. Qed.
Print Assumptions C70_errors.

Definition ex_se_sg : signer := fun n z d => [x30; Zb (Z.of_nat n); Zb z] ++ firstn 6 d.
Definition ex_se_key : privkey := PrivateKey 1 livenet true.
Definition ex_se_in (c : in_class) (l : list instr) : input := Input c (repeat x61 64) 1 (Script None l) 7.
Definition ex_se_tx : tx := Tx [ex_se_in C_ScriptInput [Instr x51 None]] [Output C_Output 5 (Script None [Instr x52 None])] 0 1.
Definition ex_se_m : bytes := Eval vm_compute in match tx_preimage ex_se_tx 0 300 with Ok m => m | Err _ => [] end.
Example C44_ex_errors : tx_fits ex_se_tx /\ signing_message ex_se_tx 0 300 ex_se_m /\ tx_sign ex_se_sg ex_se_tx [ex_se_key] 0 300 = Err E_ValueError.
Proof.
  assert (F : tx_fits ex_se_tx) by (apply tx_fitsb_ok; vm_compute; reflexivity). split; [exact F|]. split.
  - apply (P_TxSign.preimage_message ex_se_tx 0 300 ex_se_m F); [vm_compute; intuition discriminate|vm_compute; reflexivity].
  - vm_compute; reflexivity.
Qed.
Example C45_ex_errors : in_class_of (ex_se_in C_AddressInput []) = C_AddressInput /\ valid_key ex_se_key
  /\ input_sign ex_se_sg (ex_se_in C_AddressInput []) [ex_se_key] (repeat x09 32) 256 = Err E_ValueError
  /\ exists i, input_sign ex_se_sg (ex_se_in C_AddressInput []) [ex_se_key] (repeat x09 32) 255 = Ok i.
Proof. split; [reflexivity|]. split; [split; [split; vm_compute; congruence|vm_compute; tauto]|]. split; [vm_compute; reflexivity|]. eexists. vm_compute. reflexivity. Qed.
Example C70_ex_errors : input_sign ex_se_sg (ex_se_in C_ScriptInput [Instr x51 None]) [ex_se_key] (repeat x09 32) (-1) = Err E_ValueError
  /\ input_sign ex_se_sg (ex_se_in C_MultisigInput [Instr x51 None; Instr x4c (Some (Str (repeat x00 80)))]) [ex_se_key] (repeat x09 32) 1 = Err E_TypeError
  /\ input_sign ex_se_sg (ex_se_in C_ScriptInput []) [] (repeat x09 32) 300 = Err E_Op_InvalidConstPushLength
  /\ (forall n s, blen (ex_se_sg n s (repeat x09 32)) < 4294967295).
Proof. split; [vm_compute; reflexivity|]. split; [vm_compute; reflexivity|]. split; [vm_compute; reflexivity|]. intros n s. reflexivity. Qed.
