(** Specification of sizes: how many bytes scripts and transactions take. *)
From Coq Require Import ZArith List.
From Verif Require Import Base M_Keys S_Keys M_EC M_Script S_Script M_Tx.
Import ListNotations.
Open Scope Z_scope.

(** the sum of [f] over a list *)
Definition total {A} (f : A -> Z) (l : list A) : Z := fold_right (fun a s => f a + s) 0 l.

(** the bytes of a number in the format of Bitcoin's lengths and counts *)
Definition int_size (n : Z) : Z := if n <? 253 then 1 else if n <? 2 ^ 16 then 3 else if n <? 2 ^ 32 then 5 else 9.
(** an opcode, and the data when it is one of the opcodes 1 to 75 *)
Definition instr_size (i : instr) : Z :=
  1 + if (1 <=? bZ (i_op i)) && (bZ (i_op i) <=? 75) then match i_data i with Some d => pyb_len d | None => 0 end else 0.
Definition script_size (s : script) : Z := total instr_size (s_ins s).
(** a script with its length in front *)
Definition block_size (s : script) : Z := int_size (script_size s) + script_size s.
(** id (two digits a byte), index, script, sequence number *)
Definition input_size (i : input) : Z := blen (in_tx_id i) / 2 + 4 + block_size (in_script i) + 4.
Definition output_size (o : output) : Z := 8 + block_size (out_script o).
(** version, counted inputs, counted outputs, lock time *)
Definition tx_size (t : tx) : Z :=
  4 + int_size (blen (tx_inputs t)) + total input_size (tx_inputs t) +
  int_size (blen (tx_outputs t)) + total output_size (tx_outputs t) + 4.

(** the bytes a serialised public key takes *)
Definition key_size (k : pubkey) : Z := if pk_compressed k then 33 else 65.

(** what a parsed script holds: one object for each instruction, and the data *)
Definition held (s : script) : Z := total (fun i => 1 + match i_data i with Some d => pyb_len d | None => 0 end) (s_ins s).

(** an input that holds a signature of up to 73 bytes (with its type) and a compressed key *)
Definition spends_key (i : input) : Prop :=
  exists d k sig, hex_text (in_tx_id i) d /\ blen d = 32 /\ pk_compressed k = true /\ blen sig <= 73 /\ p2pk_in_create k (Str sig) = Ok (in_script i).
(** an output to a usable address *)
Definition to_address (o : output) : Prop := exists amt a, valid_addr a /\ address_output_create amt a = Ok o.
