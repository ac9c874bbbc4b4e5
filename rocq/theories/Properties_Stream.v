(** Property theorems C113: formats that show where they end, and what is never confused with what. *)
From Coq Require Import ZArith Lia List.
From Verif Require Import Base M_Codec S_Codec P_Codec M_Keys S_Keys M_EC S_EC M_Script S_Script M_Tx S_Tx P_Tx P_TxSign S_Wide P_Wide S_Sign S_Stream P_Stream.
Import ListNotations.
Open Scope Z_scope.

(** *** C113 *)
Theorem C113_size : self_delimiting any_size eq.
Proof. exact delim_size. Qed.
Print Assumptions C113_size.

Theorem C113_script : self_delimiting (sized_script any_size) same_script.
Proof. exact delim_script. Qed.
Print Assumptions C113_script.

Theorem C113_input : self_delimiting (input_wire any_size) (fun i i' => same_input (lower_input i) (lower_input i')).
Proof. exact delim_input. Qed.
Print Assumptions C113_input.

Theorem C113_output : self_delimiting (output_wire any_size) same_output.
Proof. exact delim_output. Qed.
Print Assumptions C113_output.

Theorem C113_transaction : self_delimiting (tx_wire any_size) (fun t t' => same_tx (lower_ids t) (lower_ids t')).
Proof. exact delim_tx. Qed.
Print Assumptions C113_transaction.

Theorem C113_key : self_delimiting (fun k b => sec_of (fst (fst k)) (snd (fst k)) (snd k) b)
  (fun k k' => fst (fst k) = fst (fst k') /\ snd k = snd k' /\ (if snd k then Z.even (snd (fst k)) = Z.even (snd (fst k')) else snd (fst k) = snd (fst k'))).
Proof. exact delim_sec. Qed.
Print Assumptions C113_key.

Theorem C113_signature : self_delimiting (fun rs b => der_sig (fst rs) (snd rs) b) eq.
Proof. exact delim_der. Qed.
Print Assumptions C113_signature.

Theorem C113_bare_script_refuted : ~ self_delimiting (fun s w => wire_script (map content (s_ins s)) w) same_script.
Proof. exact bare_script_open. Qed.
Print Assumptions C113_bare_script_refuted.

Theorem C113_stream : forall l l' w, each (tx_wire any_size) l w -> each (tx_wire any_size) l' w ->
  Forall2 (fun t t' => same_tx (lower_ids t) (lower_ids t')) l l'.
Proof. exact tx_stream. Qed.
Print Assumptions C113_stream.

Theorem C113_stream_prefix : forall l l' w rest, each (tx_wire any_size) l w -> each (tx_wire any_size) l' (w ++ rest) ->
  exists l1 l2, l' = l1 ++ l2 /\ Forall2 (fun t t' => same_tx (lower_ids t) (lower_ids t')) l l1 /\ each (tx_wire any_size) l2 rest.
Proof. exact tx_stream_prefix. Qed.
Print Assumptions C113_stream_prefix.

Theorem C113_written : forall l l' w, Forall tx_fits l -> Forall tx_fits l' ->
  concat_bytes tx_to_bytes l = Ok w -> concat_bytes tx_to_bytes l' = Ok w ->
  Forall2 (fun t t' => same_tx (lower_ids t) (lower_ids t')) l l'.
Proof. exact written_same. Qed.
Print Assumptions C113_written.

Theorem C113_reads : forall n b l rest, read_times tx_from_buffer n b = (Ok l, rest) <->
  exists w, b = w ++ rest /\ List.length l = n /\ each (tx_wire any_size) l w /\ Forall parsed_tx l.
Proof. exact read_txs. Qed.
Print Assumptions C113_reads.

Theorem C113_reads_back : forall l w rest, Forall tx_fits l -> Forall tx_classifiable l ->
  Forall (fun t => blen (tx_inputs t) < 2 ^ 60 /\ blen (tx_outputs t) < 2 ^ 60) l ->
  concat_bytes tx_to_bytes l = Ok w ->
  exists l', read_times tx_from_buffer (List.length l) (w ++ rest) = (Ok l', rest) /\ Forall2 (fun t t' => same_tx t' (lower_ids t)) l l'.
Proof. exact reread. Qed.
Print Assumptions C113_reads_back.

Theorem C113_reads_inputs : forall cls n b l rest, read_times (input_from_buffer cls) n b = (Ok l, rest) <->
  exists w, b = w ++ rest /\ List.length l = n /\ each (input_wire any_size) l w /\
    Forall (fun i => in_class_of i = cls /\ map lower (in_tx_id i) = in_tx_id i /\ parsed_script (in_script i)) l.
Proof. exact read_inputs. Qed.
Print Assumptions C113_reads_inputs.

Theorem C113_reads_outputs : forall n b l rest, read_times output_from_buffer n b = (Ok l, rest) <->
  exists w, b = w ++ rest /\ List.length l = n /\ each (output_wire any_size) l w /\ Forall parsed_output l.
Proof. exact read_outputs. Qed.
Print Assumptions C113_reads_outputs.

Theorem C113_messages : forall t t' k st w m, shape_fits t -> shape_fits t' ->
  tx_to_bytes t = Ok w -> tx_preimage t' k st = Ok m -> m <> w.
Proof. exact domain. Qed.
Print Assumptions C113_messages.

Theorem C113_messages_rest : forall t t' k st w m r, shape_fits t -> shape_fits t' ->
  tx_to_bytes t = Ok w -> tx_preimage t' k st = Ok m -> m = w ++ r -> r = encode_int st false (Some 4%nat).
Proof. exact domain_rest. Qed.
Print Assumptions C113_messages_rest.

Theorem C113_messages_any_id_refuted : exists t t' m, tx_preimage t' 0 1 = Ok m /\ tx_to_bytes t = Ok m /\ numbers_fit t /\ tx_fits t'.
Proof. exact (ex_intro _ d_fake (ex_intro _ d_signed domain_open)). Qed.
Print Assumptions C113_messages_any_id_refuted.

(** Two transactions one after the other, and the message for the first of them. *)
Example C113_ex : exists w, concat_bytes tx_to_bytes [d_signed; w_amount 7] = Ok w /\
  Forall tx_fits [d_signed; w_amount 7] /\ shape_fits (w_amount 7) /\
  exists l, read_times tx_from_buffer 2 (w ++ [x00; x01]) = (Ok l, [x00; x01]) /\ List.length l = 2%nat.
Proof.
  eexists. split; [vm_compute; reflexivity|]. split; [constructor; [|constructor; [|constructor]]; apply tx_fitsb_ok; vm_compute; reflexivity|]. split; [apply w_amount_ok|].
  eexists. split; [vm_compute; reflexivity|reflexivity].
Qed.
Example C113_ex_message : exists m, tx_preimage d_signed 0 1 = Ok m /\ tx_fits d_signed.
Proof. destruct domain_open as (m & A & _ & _ & B). exact (ex_intro _ m (conj A B)). Qed.
Example C113_ex_size : any_size 5 [x05] /\ any_size 5 [xfd; x05; x00] /\ sized_script any_size (Script None []) [x00].
Proof.
  split; [|split].
  - left. exists x05. split; [reflexivity|]. split; [reflexivity|lia].
  - right. left. exists [x05; x00]. split; [reflexivity|]. split; reflexivity.
  - exists [x00], []. split; [left; exists x00; split; [reflexivity|split; [reflexivity|cbn; lia]]|]. split; [constructor|reflexivity].
Qed.
