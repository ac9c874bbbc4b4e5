(** Specifications for transactions whose fields do not fit the wire format. *)
From Coq Require Import ZArith List.
From Verif Require Import Base S_Codec M_Script S_Script M_Tx S_Tx.
Import ListNotations.
Open Scope Z_scope.

(** What a field of [k] bytes holds after a number was written to it: negative numbers are
    written as zero, others lose their high bits. *)
Definition stored (k : nat) (n : Z) : Z := if n <? 0 then 0 else n mod 256 ^ Z.of_nat k.
Definition stored_input (i : input) : input :=
  Input (in_class_of i) (in_tx_id i) (stored 4 (in_index i)) (in_script i) (stored 4 (in_seq i)).
Definition stored_output (o : output) : output := Output (out_class_of o) (stored 8 (out_amount o)) (out_script o).
Definition stored_tx (t : tx) : tx :=
  Tx (map stored_input (tx_inputs t)) (map stored_output (tx_outputs t)) (stored 4 (tx_lock_time t)) (stored 4 (tx_version t)).

(** All numbers of a transaction fit their fields. *)
Definition numbers_fit (t : tx) : Prop :=
  u32 (tx_version t) /\ u32 (tx_lock_time t) /\
  Forall (fun i => u32 (in_index i) /\ u32 (in_seq i)) (tx_inputs t) /\ Forall (fun o => u64 (out_amount o)) (tx_outputs t).

(** Instructions that cannot be written: PUSHDATA, and a data opcode without its data. *)
Definition unwritable (i : instr) : Prop := pushdata (i_op i) \/ (1 <= bZ (i_op i) <= 75 /\ i_data i = None).
Definition bad_script (s : script) : Prop := Exists unwritable (s_ins s).

(** The error of writing an input: the script comes first, then the id. *)
Definition input_error (i : input) (e : exn) : Prop :=
  (e = E_TypeError /\ bad_script (in_script i)) \/
  (e = E_InvalidHex /\ ~ bad_script (in_script i) /\ ~ exists d, hex_text (in_tx_id i) d).
Definition input_good (i : input) : Prop := ~ bad_script (in_script i) /\ exists d, hex_text (in_tx_id i) d.

(** A transaction whose numbers are arbitrary but whose ids and scripts can be written. *)
Definition shape_fits (t : tx) : Prop :=
  tx_inputs t <> [] /\ u64 (blen (tx_inputs t)) /\
  Forall (fun i => length (in_tx_id i) = 64%nat /\ Forall is_hex (in_tx_id i) /\ writable (in_script i)) (tx_inputs t) /\
  tx_outputs t <> [] /\ u64 (blen (tx_outputs t)) /\ Forall (fun o => writable (out_script o)) (tx_outputs t).
