(** C40: transactions that announce too many inputs or outputs. *)
From Coq Require Import ZArith List Lia Strings.Byte.
From Verif Require Import Base M_Codec M_Keys M_Script M_Tx S_Codec S_Script S_Tx P_Huge.
Import ListNotations.
Open Scope Z_scope.

Theorem C40_huge_inputs : forall v n c rest, List.length v = 4%nat -> any_size n c -> 2 ^ 60 <= n ->
  tx_from_bytes (v ++ c ++ rest) = Err (if 2 ^ 63 <=? n then E_OverflowError else E_MemoryError).
Proof. exact huge_inputs. Qed.
Print Assumptions C40_huge_inputs.

Theorem C40_huge_outputs : forall v ins k w n c rest, List.length v = 4%nat -> any_size (blen ins) k -> blen ins < 2 ^ 60 ->
  each (input_wire any_size) ins w -> Forall parsed_input ins -> any_size n c -> 2 ^ 60 <= n ->
  tx_from_bytes (v ++ k ++ w ++ c ++ rest) = Err (if 2 ^ 63 <=? n then E_OverflowError else E_MemoryError).
Proof. exact huge_outputs. Qed.
Print Assumptions C40_huge_outputs.

Example C40_huge_ex : let v := [x01; x00; x00; x00] in let i := repeat x00 36 ++ [x00] ++ repeat xff 4 in
  tx_from_bytes (v ++ xff :: repeat x00 7 ++ [x10]) = Err E_MemoryError
  /\ tx_from_bytes (v ++ xff :: repeat x00 7 ++ [x80]) = Err E_OverflowError
  /\ tx_from_bytes (v ++ [x01] ++ i ++ xff :: repeat x00 7 ++ [x10; x05]) = Err E_MemoryError.
Proof. repeat split; vm_compute; reflexivity. Qed.
