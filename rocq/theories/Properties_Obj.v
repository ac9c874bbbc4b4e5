(** Property theorems C97-C98: comparing and hashing the objects of the library. *)
From Coq Require Import ZArith List.
From Verif Require Import Base M_Hash M_Codec M_Keys S_Keys M_EC M_Script M_Tx M_HD M_Obj S_Script S_Obj P_Obj.
Import ListNotations.
Open Scope Z_scope.

(** *** C97 *)
Theorem C97_reflexive : forall v, py_eq v v = Ok true.
Proof. exact eq_refl_all. Qed.
Print Assumptions C97_reflexive.

Theorem C97_symmetric : forall a b x y, py_eq a b = Ok x -> py_eq b a = Ok y -> x = y.
Proof. exact eq_sym_all. Qed.
Print Assumptions C97_symmetric.

Theorem C97_symmetric_refuted : exists a b, py_eq a b = Ok false /\ py_eq b a = Err E_AttributeError.
Proof. exact eq_sym_refuted. Qed.
Print Assumptions C97_symmetric_refuted.

Theorem C97_transitive_refuted : exists a b c, py_eq a b = Ok true /\ py_eq b c = Ok true /\ py_eq a c = Ok false.
Proof. exact eq_trans_refuted. Qed.
Print Assumptions C97_transitive_refuted.

Theorem C97_network : forall a b, decides (py_eq (network_val a) (network_val b)) (a = b).
Proof. exact eq_network. Qed.
Print Assumptions C97_network.

Theorem C97_privkey : forall a b, decides (py_eq (privkey_val a) (privkey_val b)) (a = b).
Proof. exact eq_privkey. Qed.
Print Assumptions C97_privkey.

Theorem C97_pubkey : forall a b, decides (py_eq (pubkey_val a) (pubkey_val b)) (a = b).
Proof. exact eq_pubkey. Qed.
Print Assumptions C97_pubkey.

Theorem C97_address : forall a b, decides (py_eq (address_val a) (address_val b)) (same_address a b).
Proof. exact eq_address. Qed.
Print Assumptions C97_address.

Theorem C97_hdpriv : forall a b, decides (py_eq (hdpriv_val a) (hdpriv_val b)) (a = b).
Proof. exact eq_hdpriv. Qed.
Print Assumptions C97_hdpriv.

Theorem C97_hdpub : forall a b, decides (py_eq (hdpub_val a) (hdpub_val b)) (a = b).
Proof. exact eq_hdpub. Qed.
Print Assumptions C97_hdpub.

Theorem C97_instr : forall u v i j, is_instr u i -> is_instr v j -> decides (py_eq u v) (same_instr i j).
Proof. exact eq_instr. Qed.
Print Assumptions C97_instr.

Theorem C97_script : forall u v s t, is_script u s -> is_script v t -> decides (py_eq u v) (same_script s t).
Proof. exact eq_script. Qed.
Print Assumptions C97_script.

Theorem C97_input : forall u v a b, is_input u a -> is_input v b -> ascii (in_tx_id a) -> decides (py_eq u v) (same_input a b).
Proof. exact eq_input. Qed.
Print Assumptions C97_input.

Theorem C97_output : forall u v a b, is_output u a -> is_output v b -> decides (py_eq u v) (same_output a b).
Proof. exact eq_output. Qed.
Print Assumptions C97_output.

Theorem C97_tx : forall u v a b, is_tx u a -> is_tx v b -> ascii_ids a -> decides (py_eq u v) (same_tx a b).
Proof. exact eq_tx. Qed.
Print Assumptions C97_tx.

Theorem C97_opcode : forall x n v, py_eq (VOpcode x n) v = Ok true <-> exists y, v = VOpcode y n.
Proof. exact opcode_eq. Qed.
Print Assumptions C97_opcode.

Theorem C97_opcode_total : forall x n v, (exists b, py_eq (VOpcode x n) v = Ok b).
Proof. exact opcode_eq_total. Qed.
Print Assumptions C97_opcode_total.

Theorem C97_opcode_order : forall n y m, (op_lt n (VOpcode y m) = true <-> n < m) /\ (op_le n (VOpcode y m) = true <-> n <= m)
  /\ (op_gt n (VOpcode y m) = true <-> n > m) /\ (op_ge n (VOpcode y m) = true <-> n >= m).
Proof. exact opcode_order. Qed.
Print Assumptions C97_opcode_order.

Theorem C97_opcode_above : forall n v, ~ is_opcode v ->
  op_lt n v = false /\ op_le n v = false /\ op_gt n v = true /\ op_ge n v = true.
Proof. exact opcode_above. Qed.
Print Assumptions C97_opcode_above.

Theorem C97_not_equal : forall a b x, ~ is_opcode a -> ~ is_opcode b -> py_eq a b = Ok x -> py_ne a b = Ok (negb x).
Proof. exact ne_of_eq. Qed.
Print Assumptions C97_not_equal.

Theorem C97_not_equal_opcode : forall x n y m, py_ne (VOpcode x n) (VOpcode y m) = Ok true <-> x <> y.
Proof. exact ne_opcode. Qed.
Print Assumptions C97_not_equal_opcode.

Theorem C97_not_equal_opcode_other : forall x n v, ~ is_opcode v -> py_ne (VOpcode x n) v = Ok true /\ py_ne v (VOpcode x n) = Ok true.
Proof. exact ne_opcode_other. Qed.
Print Assumptions C97_not_equal_opcode_other.

Theorem C97_not_equal_refuted : exists a b, py_eq a b = Ok true /\ py_ne a b = Ok true.
Proof. exact ne_refuted. Qed.
Print Assumptions C97_not_equal_refuted.

Theorem C97_instr_other : forall x n d v, simple v ->
  py_eq (VInstr x n d) v = Err E_AttributeError /\ py_eq v (VInstr x n d) = Err E_AttributeError
  /\ py_ne (VInstr x n d) v = Ok true /\ py_ne v (VInstr x n d) = Ok true.
Proof. exact instr_other. Qed.
Print Assumptions C97_instr_other.

Theorem C97_instr_tuple : forall x n d l, py_eq (VInstr x n d) (VTuple K_tuple l) = Err E_AttributeError
  /\ py_eq (VTuple K_tuple l) (VInstr x n d) = Err E_AttributeError.
Proof. exact instr_tuple. Qed.
Print Assumptions C97_instr_tuple.

Theorem C97_tuple_derived : forall c l d m, derives d c -> py_eq (VTuple c l) (VTuple d m) = pairwise (fun a b => py_eq b a) l m
  /\ py_ne (VTuple c l) (VTuple d m) = inv (pairwise (fun a b => py_eq b a) l m).
Proof. exact tuple_derived. Qed.
Print Assumptions C97_tuple_derived.

Theorem C97_tuple_other : forall c l d m, ~ derives d c -> py_eq (VTuple c l) (VTuple d m) = pairwise py_eq l m
  /\ py_ne (VTuple c l) (VTuple d m) = inv (pairwise py_eq l m).
Proof. exact tuple_other. Qed.
Print Assumptions C97_tuple_other.

Theorem C97_list : forall l m, py_eq (VList l) (VList m) = if Nat.eqb (List.length l) (List.length m) then pairwise py_eq l m else Ok false.
Proof. exact list_eq. Qed.
Print Assumptions C97_list.

Theorem C97_tuple_instr : forall c l x n d, c <> K_tuple -> py_eq (VTuple c l) (VInstr x n d) = pairwise py_eq l [VOpcode x n; data_val d]
  /\ py_eq (VInstr x n d) (VTuple c l) = Err E_AttributeError.
Proof. exact tuple_instr. Qed.
Print Assumptions C97_tuple_instr.

Theorem C97_tuple_instr_not_equal : forall c l x n d, c <> K_tuple -> py_ne (VTuple c l) (VInstr x n d) = inv (pairwise py_eq l [VOpcode x n; data_val d])
  /\ py_ne (VInstr x n d) (VTuple c l) = inv (pairwise py_eq [VOpcode x n; data_val d] l).
Proof. exact tuple_instr_ne. Qed.
Print Assumptions C97_tuple_instr_not_equal.

Theorem C97_plain_instr_not_equal : forall l x n d, py_ne (VTuple K_tuple l) (VInstr x n d) = inv (pairwise (fun a b => py_eq b a) l [VOpcode x n; data_val d])
  /\ py_ne (VInstr x n d) (VTuple K_tuple l) = inv (pairwise py_eq [VOpcode x n; data_val d] l).
Proof. exact plain_instr_ne. Qed.
Print Assumptions C97_plain_instr_not_equal.

Theorem C97_model_opcodes : forall x y a b, py_eq (VOpcode x (bZ a)) (VOpcode y (bZ b)) = Ok (op_eqb a b).
Proof. exact op_eqb_val. Qed.
Print Assumptions C97_model_opcodes.

Theorem C97_model_instr : forall u v i j, is_instr u i -> is_instr v j -> py_eq u v = Ok (instr_eqb i j).
Proof. exact instr_eqb_val. Qed.
Print Assumptions C97_model_instr.

Theorem C97_model_pubkeys : forall a b, known (pk_network a) -> known (pk_network b) -> py_eq (pubkey_val a) (pubkey_val b) = Ok (pubkey_eqb a b).
Proof. exact pubkey_eqb_val. Qed.
Print Assumptions C97_model_pubkeys.

(** the same transaction, once with a text id, an AddressInput and pushes of [str], once as parsed *)
Example C97_ex : is_tx (ex_tx_val (VString [97; 98]) C_AddressInput (Str [x05])) (ex_tx C_AddressInput (Str [x05])) /\
  is_tx (ex_tx_val (VBytes (Str [x61; x62])) C_Input (BA [x05])) (ex_tx C_Input (BA [x05])) /\
  py_eq (ex_tx_val (VString [97; 98]) C_AddressInput (Str [x05])) (ex_tx_val (VBytes (Str [x61; x62])) C_Input (BA [x05])) = Ok true /\
  py_ne (ex_tx_val (VString [97; 98]) C_AddressInput (Str [x05])) (ex_tx_val (VBytes (Str [x61; x62])) C_Input (BA [x05])) = Ok false /\
  py_eq (ex_tx_val (VString [97; 98]) C_AddressInput (Str [x05])) (ex_tx_val (VString [97; 98]) C_AddressInput (Str [x06])) = Ok false.
Proof.
  split; [apply ex_tx_is; left; reflexivity|]. split; [apply ex_tx_is; right; reflexivity|].
  split; [reflexivity|]. split; reflexivity.
Qed.
Example C97_ex_keys : py_eq (privkey_val (PrivateKey 5 livenet true)) (privkey_val (PrivateKey 5 testnet true)) = Ok false /\
  py_eq (privkey_val (PrivateKey 5 testnet true)) (privkey_val (PrivateKey 5 testnet true)) = Ok true.
Proof. split; reflexivity. Qed.

(** a Script asks its own items first even on the right of a plain tuple *)
Example C97_ex_order : derives (K_Script (Some PayToPubkeyIn)) K_tuple /\
  py_eq (VTuple K_tuple [VOpcode 1 81]) (VTuple (K_Script (Some PayToPubkeyIn)) [VInstr 1 81 None]) = Err E_AttributeError /\
  py_eq (VTuple K_tuple [VOpcode 1 81]) (VTuple K_tuple [VInstr 1 81 None]) = Ok false.
Proof. split; [eapply Derives_step; [constructor|]; apply Derives_base; constructor|]. split; reflexivity. Qed.

(** *** C98 *)
Theorem C98_hashable : forall h v, (exists k, py_hash h v = Ok k) <-> immutable v.
Proof. exact hash_ok. Qed.
Print Assumptions C98_hashable.

Theorem C98_otherwise : forall h v, ~ immutable v -> py_hash h v = Err E_TypeError.
Proof. exact hash_fail. Qed.
Print Assumptions C98_otherwise.

Theorem C98_consistent : forall h a b x y, py_eq a b = Ok true -> py_hash h a = Ok x -> py_hash h b = Ok y -> x = y.
Proof. exact hash_consistent. Qed.
Print Assumptions C98_consistent.

Theorem C98_keys_refuted : forall h, (forall n, py_hash h (network_val n) = Err E_TypeError)
  /\ (forall k, py_hash h (privkey_val k) = Err E_TypeError) /\ (forall k, py_hash h (pubkey_val k) = Err E_TypeError)
  /\ (forall a, py_hash h (address_val a) = Err E_TypeError) /\ (forall k, py_hash h (hdpriv_val k) = Err E_TypeError)
  /\ (forall k, py_hash h (hdpub_val k) = Err E_TypeError).
Proof. exact keys_unhashable. Qed.
Print Assumptions C98_keys_refuted.

Theorem C98_script : forall h v s, is_script v s -> (exists k, py_hash h v = Ok k) <-> Forall data_str (s_ins s).
Proof. exact hash_script. Qed.
Print Assumptions C98_script.

Theorem C98_parsed : forall h b s v, script_from_bytes b = Ok s -> is_script v s ->
  (exists k, py_hash h v = Ok k) <-> Forall (fun i => i_data i = None) (s_ins s).
Proof. exact hash_parsed. Qed.
Print Assumptions C98_parsed.

Theorem C98_text : forall h t s v, script_from_string t = Ok s -> is_script v s -> exists k, py_hash h v = Ok k.
Proof. exact hash_text_script. Qed.
Print Assumptions C98_text.

Theorem C98_tx : forall h v t, is_tx v t ->
  (exists k, py_hash h v = Ok k) <->
  Forall (fun i => Forall data_str (s_ins (in_script i))) (tx_inputs t)
  /\ Forall (fun o => Forall data_str (s_ins (out_script o))) (tx_outputs t).
Proof. exact hash_tx. Qed.
Print Assumptions C98_tx.

Theorem C98_equal_refuted : exists b t s s' v v',
  script_from_bytes b = Ok s /\ script_from_string t = Ok s' /\ is_script v s /\ is_script v' s' /\ py_eq v v' = Ok true /\
  forall h, py_hash h v = Err E_TypeError /\ exists k, py_hash h v' = Ok k.
Proof. exact hash_equal_refuted. Qed.
Print Assumptions C98_equal_refuted.

Definition ex_hasher : hasher :=
  Hasher 7 (fun z => z) (fun t => fold_left (fun a c => 3 * a + c) t 1) (fun s => fold_left (fun a c => 3 * a + c) (map bZ s) 1)
    (fun t => match t with T_PublicKey => 11 | T_Script => 12 end) (fun l => fold_left (fun a c => 5 * a + c) l 2)
    (fun s _ => eq_refl).
Example C98_ex : py_eq (ex_tx_val (VString [97; 98]) C_AddressInput (Str [x05])) (ex_tx_val (VBytes (Str [x61; x62])) C_Input (Str [x05])) = Ok true /\
  (exists k, py_hash ex_hasher (ex_tx_val (VString [97; 98]) C_AddressInput (Str [x05])) = Ok k) /\
  (exists k, py_hash ex_hasher (ex_tx_val (VBytes (Str [x61; x62])) C_Input (Str [x05])) = Ok k) /\
  py_hash ex_hasher (ex_tx_val (VBytes (Str [x61; x62])) C_Input (BA [x05])) = Err E_TypeError.
Proof. split; [reflexivity|]. split; [eexists; reflexivity|]. split; [eexists; reflexivity|]. reflexivity. Qed.
Example C98_ex_parsed : script_from_bytes [x51; x87] = Ok (Script None [Instr x51 None; Instr x87 None]) /\
  script_from_bytes [x01; x05] = Ok (Script None [Instr x01 (Some (BA [x05]))]).
Proof. split; reflexivity. Qed.
