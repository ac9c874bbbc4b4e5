(** Property theorems C97, C98 and C35: plain values, and instructions without their data. *)
From Coq Require Import ZArith List.
From Verif Require Import Base M_Hash M_Codec M_Keys M_EC M_Script M_Tx M_HD M_Obj S_Obj S_Leaf P_Leaf.
Import ListNotations.
Open Scope Z_scope.

(** *** C97 *)
Theorem C97_plain : forall a b, plain a -> plain b -> decides (py_eq a b) (same_plain a b).
Proof. exact plain_eq. Qed.
Print Assumptions C97_plain.

Example C97_plain_ex : py_eq (VBool true) (VInteger 1) = Ok true /\ py_eq (VBool true) (VInteger 2) = Ok false
  /\ py_eq (VString [97]) (VBytes (Str [x61])) = Ok true /\ py_eq (VString [97]) (VBytes (BA [x61])) = Ok false
  /\ py_eq (VString [200]) (VBytes (Str [xc8])) = Ok false.
Proof. repeat split. Qed.

(** *** C98 *)
Theorem C98_number : forall h v z, number v z -> py_hash h v = Ok (hash_int h z).
Proof. exact number_hash. Qed.
Print Assumptions C98_number.

Example C98_number_ex : number (VBool true) 1 /\ number (VInteger 7) 7.
Proof. repeat constructor. Qed.

Theorem C98_characters : forall h v t, characters v t -> py_hash h v = Ok (hash_text h t).
Proof. exact characters_hash. Qed.
Print Assumptions C98_characters.

Example C98_characters_ex : characters (VBytes (Str [x61; x7a])) [97; 122].
Proof. exact (Char_str [x61; x7a] ltac:(repeat constructor)). Qed.

(** *** C35 *)
Theorem C35_no_data : forall i, 1 <= bZ (i_op i) <= 78 -> i_data i = None -> ins_to_string i = Err E_TypeError.
Proof. exact print_no_data. Qed.
Print Assumptions C35_no_data.

Example C35_no_data_ex : 1 <= bZ (i_op (Instr x4c None)) <= 78 /\ i_data (Instr x4c None) = None.
Proof. split; [now split | reflexivity]. Qed.
