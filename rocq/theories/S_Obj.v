(** What comparing and hashing should mean, in terms of the contents of the objects. *)
From Verif Require Import Base M_Keys M_EC M_Script M_Tx M_HD M_Obj S_Script.
Open Scope Z_scope.

(** Two instructions, or two scripts ([same_script] of S_Script), with the same opcodes and the
    same bytes pushed, whatever the types of the byte strings and the class of the script. *)
Definition same_instr (i j : instr) : Prop := content i = content j.
Definition same_input (a b : input) : Prop :=
  in_tx_id a = in_tx_id b /\ in_index a = in_index b /\ same_script (in_script a) (in_script b) /\ in_seq a = in_seq b.
Definition same_output (a b : output) : Prop :=
  out_amount a = out_amount b /\ same_script (out_script a) (out_script b).
Definition same_tx (a b : tx) : Prop :=
  Forall2 same_input (tx_inputs a) (tx_inputs b) /\ Forall2 same_output (tx_outputs a) (tx_outputs b)
  /\ tx_lock_time a = tx_lock_time b /\ tx_version a = tx_version b.
Definition same_address (a b : address) : Prop :=
  pyb_bytes (a_phash a) = pyb_bytes (a_phash b) /\ a_network a = a_network b /\ a_type a = a_type b.

Definition ascii (b : bytes) : Prop := Forall (fun c => bZ c < 128) b.
Definition ascii_ids (t : tx) : Prop := Forall (fun i => ascii (in_tx_id i)) (tx_inputs t).

Definition is_opcode (v : pyv) : Prop := exists x n, v = VOpcode x n.
(** Neither a tuple (an Instruction is one) nor an Opcode. *)
Definition simple (v : pyv) : Prop :=
  match v with VOpcode _ _ | VInstr _ _ _ | VTuple _ _ => False | _ => True end.

(** Contains no list and no bytearray. *)
Inductive immutable : pyv -> Prop :=
  | Im_none : immutable VNone
  | Im_bool b : immutable (VBool b)
  | Im_int z : immutable (VInteger z)
  | Im_text t : immutable (VString t)
  | Im_str s : immutable (VBytes (Str s))
  | Im_opcode x n : immutable (VOpcode x n)
  | Im_instr_none x n : immutable (VInstr x n None)
  | Im_instr_str x n s : immutable (VInstr x n (Some (Str s)))
  | Im_type t : immutable (VType t)
  | Im_tuple c l : Forall immutable l -> immutable (VTuple c l).

(** The comparison gives an answer, and it is whether [P] holds. *)
Definition decides (r : res bool) (P : Prop) : Prop := exists b, r = Ok b /\ (b = true <-> P).

(** The class statements: each class with the class it is declared from. *)
Inductive declared : tclass -> tclass -> Prop :=
  | D_network : declared K_Network K_tuple
  | D_script : declared (K_Script None) K_tuple
  | D_scripts c : declared (K_Script (Some c)) (K_Script None)
  | D_input : declared (K_Input C_Input) K_tuple
  | D_address_input : declared (K_Input C_AddressInput) (K_Input C_Input)
  | D_script_input : declared (K_Input C_ScriptInput) (K_Input C_Input)
  | D_multisig_input : declared (K_Input C_MultisigInput) (K_Input C_ScriptInput)
  | D_output : declared (K_Output C_Output) K_tuple
  | D_address_output : declared (K_Output C_AddressOutput) (K_Output C_Output)
  | D_script_output : declared (K_Output C_ScriptOutput) (K_Output C_Output)
  | D_multisig_output : declared (K_Output C_MultisigOutput) (K_Output C_ScriptOutput)
  | D_data_output : declared (K_Output C_DataOutput) (K_Output C_Output)
  | D_transaction : declared K_Transaction K_tuple
  | D_private : declared K_PrivateKey K_tuple
  | D_public : declared K_PublicKey K_tuple
  | D_address : declared K_Address K_tuple
  | D_hdprivate : declared K_HDPrivateKey K_tuple
  | D_hdpublic : declared K_HDPublicKey K_tuple.
Inductive derives : tclass -> tclass -> Prop :=
  | Derives_base c d : declared c d -> derives c d
  | Derives_step c d e : declared c d -> derives d e -> derives c e.

(** Two lists, item by item with [f], up to the first difference or exception. *)
Fixpoint pairwise (f : pyv -> pyv -> res bool) (l m : list pyv) : res bool :=
  match l, m with
  | [], [] => Ok true
  | a :: l', b :: m' =>
      match f a b with Ok true => pairwise f l' m' | Ok false => Ok false | Err e => Err e end
  | _, _ => Ok false
  end.
Definition inv (r : res bool) : res bool := match r with Ok b => Ok (negb b) | Err e => Err e end.
