(** How many bytes scripts and transactions take. *)
From Verif Require Import Base S_Codec M_Codec M_Keys S_Keys M_EC M_Script S_Script M_Tx S_Tx S_Size P_Size.
Open Scope Z_scope.

(** *** C109 *)
Theorem C109_compact : forall n, 0 <= n -> blen (encode_varint n) = int_size n.
Proof. exact varint_length. Qed.
Print Assumptions C109_compact.

Theorem C109_script : forall s w, script_to_bytes s = Ok w -> blen w = script_size s.
Proof. exact script_size_ok. Qed.
Print Assumptions C109_script.

Theorem C109_input : forall i w, input_to_bytes i = Ok w -> blen w = input_size i.
Proof. exact input_size_ok. Qed.
Print Assumptions C109_input.

Theorem C109_output : forall o w, output_to_bytes o = Ok w -> blen w = output_size o.
Proof. exact output_size_ok. Qed.
Print Assumptions C109_output.

Theorem C109_transaction : forall t w, tx_to_bytes t = Ok w -> blen w = tx_size t.
Proof. exact tx_size_ok. Qed.
Print Assumptions C109_transaction.

Theorem C109_address_output : forall amt a o, valid_addr a -> address_output_create amt a = Ok o -> exists w, output_to_bytes o = Ok w /\ blen w = 34.
Proof. exact address_output_size. Qed.
Print Assumptions C109_address_output.

Theorem C109_script_output : forall amt r o, script_output_create amt r = Ok o -> exists w, output_to_bytes o = Ok w /\ blen w = 32.
Proof. exact script_output_size. Qed.
Print Assumptions C109_script_output.

Theorem C109_multisig_output : forall amt ks m o, multisig_output_create amt ks m = Ok o ->
  exists w, output_to_bytes o = Ok w /\ blen w = let n := 3 + total (fun k => 1 + key_size k) ks in 8 + int_size n + n.
Proof. exact multisig_output_size. Qed.
Print Assumptions C109_multisig_output.

Theorem C109_data_output : forall d o, data_output_create d = Ok o ->
  (pyb_len d <= 75 -> exists w, output_to_bytes o = Ok w /\ blen w = 11 + pyb_len d) /\ (75 < pyb_len d -> output_to_bytes o = Err E_TypeError).
Proof. exact data_output_size. Qed.
Print Assumptions C109_data_output.

Theorem C109_signed_address : forall sg i k p st i' d, in_class_of i = C_AddressInput -> input_sign sg i [k] p st = Ok i' -> hex_text (in_tx_id i) d -> blen d = 32 ->
  blen (sg 0%nat (k_secret k) p) <= 72 ->
  exists w, input_to_bytes i' = Ok w /\ blen w = 44 + blen (sg 0%nat (k_secret k) p) + (if k_compressed k then 33 else 65).
Proof. exact signed_input_size. Qed.
Print Assumptions C109_signed_address.

Theorem C109_signed_script : forall sg i keys p st i' d, in_class_of i = C_ScriptInput \/ in_class_of i = C_MultisigInput -> input_sign sg i keys p st = Ok i' ->
  hex_text (in_tx_id i) d -> blen d = 32 -> (forall j k, nth_error keys j = Some k -> blen (sg j (k_secret k) p) <= 72) ->
  (script_size (in_script i) <= 75 -> exists w, input_to_bytes i' = Ok w /\ blen w <= let n := 2 + script_size (in_script i) + 74 * blen keys in 40 + int_size n + n) /\
  (75 < script_size (in_script i) -> input_to_bytes i' = Err E_TypeError).
Proof. exact script_signed_size. Qed.
Print Assumptions C109_signed_script.

(** A multisig input with three keys can be signed, and then never be serialised: its redeem script needs OP_PUSHDATA1. *)
Theorem C109_three_keys_refuted : forall id n ks m q i sg keys p st i', multisig_input_create id n ks m q = Ok i -> 3 <= blen ks -> input_sign sg i keys p st = Ok i' ->
  input_to_bytes i' = Err E_TypeError /\ forall t w, In i' (tx_inputs t) -> tx_to_bytes t <> Ok w.
Proof. exact multisig_input_unwritable. Qed.
Print Assumptions C109_three_keys_refuted.

Example C109_ex_three : exists i i', multisig_input_create z_id 0 [z_pub; z_pub; z_pub] 2 5 = Ok i /\
  input_sign z_sg i [PrivateKey 1 livenet true; PrivateKey 1 livenet true] [] 1 = Ok i'.
Proof. exact ex_three. Qed.
Example C109_ex_two : exists i i' w, multisig_input_create z_id 0 [z_pub; z_pub] 2 5 = Ok i /\
  input_sign z_sg i [PrivateKey 1 livenet true; PrivateKey 1 livenet true] [] 1 = Ok i' /\ input_to_bytes i' = Ok w /\ blen w = 262.
Proof. exact ex_two. Qed.

Theorem C109_estimate : forall t, Forall spends_key (tx_inputs t) -> Forall to_address (tx_outputs t) ->
  exists w, tx_to_bytes t = Ok w /\ let n := blen (tx_inputs t) in let m := blen (tx_outputs t) in blen w <= 8 + int_size n + 149 * n + int_size m + 34 * m.
Proof. exact estimate. Qed.
Print Assumptions C109_estimate.

Example C109_ex : exists t w, Forall spends_key (tx_inputs t) /\ Forall to_address (tx_outputs t) /\ tx_inputs t <> [] /\ tx_outputs t <> [] /\ tx_to_bytes t = Ok w /\ blen w = 193.
Proof. exact ex_estimate. Qed.

Theorem C109_parsed_script : forall b s, script_from_bytes b = Ok s -> held s <= blen b.
Proof. exact script_parse_cost. Qed.
Print Assumptions C109_parsed_script.

Theorem C109_parsed_transaction : forall b t, tx_from_bytes b = Ok t ->
  10 + total (fun i => 41 + held (in_script i)) (tx_inputs t) + total (fun o => 9 + held (out_script o)) (tx_outputs t) <= blen b /\ tx_size t <= blen b.
Proof. exact tx_parse_cost. Qed.
Print Assumptions C109_parsed_transaction.

Theorem C109_counts : forall b t, tx_from_bytes b = Ok t -> 10 + 41 * blen (tx_inputs t) + 9 * blen (tx_outputs t) <= blen b.
Proof. exact counts_bounded. Qed.
Print Assumptions C109_counts.

(** a transaction of 101 bytes with two inputs, as many as fit *)
Example C109_ex_tight : exists b t, tx_from_bytes b = Ok t /\ blen b = 10 + 41 * blen (tx_inputs t) + 9 * blen (tx_outputs t) /\ blen (tx_inputs t) = 2.
Proof. exact ex_tight. Qed.

Theorem C109_rewritten : forall b t w, tx_from_bytes b = Ok t -> tx_to_bytes t = Ok w -> blen w <= blen b.
Proof. exact rewrite_shorter. Qed.
Print Assumptions C109_rewritten.
