(** Proofs: transactions that announce too many inputs or outputs. *)
From Coq Require Import ZArith List Lia Bool Strings.Byte.
From Verif Require Import Base M_Hash M_Codec S_Codec P_Codec M_Keys S_Keys M_EC M_Script S_Script P_Script M_Tx S_Tx P_Tx.
Import ListNotations.
Open Scope Z_scope.

Lemma range_huge {A} (f : rd A) n s : 2 ^ 60 <= n -> read_range f n s = rerr (if 2 ^ 63 <=? n then E_OverflowError else E_MemoryError) s.
Proof.
  intros H. unfold read_range. destruct (2 ^ 63 <=? n) eqn:E.
  - replace (n >? 2 ^ 63 - 1) with true by lia. reflexivity.
  - replace (n >? 2 ^ 63 - 1) with false by lia. replace (n >=? 2 ^ 60) with true by lia. reflexivity.
Qed.
Lemma huge_inputs v n c rest : List.length v = 4%nat -> any_size n c -> 2 ^ 60 <= n ->
  tx_from_bytes (v ++ c ++ rest) = Err (if 2 ^ 63 <=? n then E_OverflowError else E_MemoryError).
Proof.
  intros L N H. unfold tx_from_bytes, tx_from_buffer.
  destruct (parses_read 4 v ltac:(unfold blen; lia)) as [R1 _]. destruct (parses_varint n c N) as [R2 _].
  rewrite (rbind_ok _ _ _ _ _ (R1 _)), (rbind_ok _ _ _ _ _ (R2 _)). unfold rbind. rewrite range_huge by exact H. reflexivity.
Qed.
Lemma huge_outputs v ins k w n c rest : List.length v = 4%nat -> any_size (blen ins) k -> blen ins < 2 ^ 60 ->
  each (input_wire any_size) ins w -> Forall parsed_input ins -> any_size n c -> 2 ^ 60 <= n ->
  tx_from_bytes (v ++ k ++ w ++ c ++ rest) = Err (if 2 ^ 63 <=? n then E_OverflowError else E_MemoryError).
Proof.
  intros L K B E F N H. unfold tx_from_bytes, tx_from_buffer.
  destruct (parses_read 4 v ltac:(unfold blen; lia)) as [R1 _]. destruct (parses_varint _ k K) as [R2 _]. destruct (parses_varint n c N) as [R3 _].
  assert (R : parses (read_range (input_from_buffer C_Input) (blen ins)) w ins).
  { rewrite read_range_eq by exact B. replace (Z.to_nat (blen ins)) with (List.length ins) by (unfold blen; lia).
    eapply read_times_parses; [exact E|]. intros a u I W. rewrite Forall_forall in F. destruct (F a I) as [C [L' P]].
    rewrite <- C. apply input_reader_parses; assumption. }
  destruct R as [R _].
  rewrite (rbind_ok _ _ _ _ _ (R1 _)), (rbind_ok _ _ _ _ _ (R2 _)), (rbind_ok _ _ _ _ _ (R _)), (rbind_ok _ _ _ _ _ (R3 _)).
  unfold rbind. rewrite range_huge by exact H. reflexivity.
Qed.
