(** Property theorems C104: transactions whose fields do not fit the wire format. *)
From Coq Require Import ZArith Lia List.
From Verif Require Import Base M_Codec S_Codec M_Script S_Script M_Tx S_Tx S_Wide P_Wide.
Import ListNotations.
Open Scope Z_scope.

(** *** C104 *)
Theorem C104_stored : forall t, tx_to_bytes t = tx_to_bytes (stored_tx t).
Proof. exact tx_stored. Qed.
Print Assumptions C104_stored.

Theorem C104_unchanged : forall t, numbers_fit t <-> stored_tx t = t.
Proof. exact fit_stored. Qed.
Print Assumptions C104_unchanged.

Theorem C104_stored_fits : forall t, numbers_fit (stored_tx t).
Proof. exact stored_fits. Qed.
Print Assumptions C104_stored_fits.

Theorem C104_readback : forall t, shape_fits t -> tx_classifiable t -> blen (tx_inputs t) < 2 ^ 60 -> blen (tx_outputs t) < 2 ^ 60 ->
  exists w t', tx_to_bytes t = Ok w /\ tx_from_bytes w = Ok t' /\ same_tx t' (lower_ids (stored_tx t)).
Proof. exact stored_readback. Qed.
Print Assumptions C104_readback.

Theorem C104_signing : forall t k st, u32 (tx_lock_time t) -> tx_inputs t <> [] -> tx_outputs t <> [] ->
  tx_preimage t k st = tx_preimage (stored_tx t) k (stored 4 st).
Proof. exact preimage_stored. Qed.
Print Assumptions C104_signing.

Theorem C104_input_errors : forall i e, input_to_bytes i = Err e <-> input_error i e.
Proof. exact input_err. Qed.
Print Assumptions C104_input_errors.

Theorem C104_output_errors : forall o e, output_to_bytes o = Err e <-> e = E_TypeError /\ bad_script (out_script o).
Proof. exact output_err. Qed.
Print Assumptions C104_output_errors.

Theorem C104_errors : forall t e, tx_to_bytes t = Err e <->
  (exists a i r, tx_inputs t = a ++ i :: r /\ Forall input_good a /\ input_error i e) \/
  (Forall input_good (tx_inputs t) /\ e = E_TypeError /\ Exists (fun o => bad_script (out_script o)) (tx_outputs t)).
Proof. exact tx_err. Qed.
Print Assumptions C104_errors.

(** Different amounts, the same bytes (and so the same id and the same signatures). *)
Theorem C104_amounts_refuted : ~ (forall t t' w, tx_to_bytes t = Ok w -> tx_to_bytes t' = Ok w -> map out_amount (tx_outputs t) = map out_amount (tx_outputs t')).
Proof. intros H. specialize (H (w_amount (-1)) (w_amount (2 ^ 64)) _ eq_refl eq_refl). discriminate. Qed.
Print Assumptions C104_amounts_refuted.

(** Ids of another length: the bytes are those of a transaction that spends other outputs. *)
Theorem C104_ids_refuted : ~ (forall t t' w, numbers_fit t -> tx_to_bytes t = Ok w -> tx_from_bytes w = Ok t' ->
  map in_tx_id (tx_inputs t') = map in_tx_id (tx_inputs t) /\ map in_index (tx_inputs t') = map in_index (tx_inputs t)).
Proof.
  intros H. destruct ids_shift as (w & L & _ & R). destruct (H _ _ _ w_long_fits L R) as [_ E]. discriminate E.
Qed.
Print Assumptions C104_ids_refuted.

Example C104_ex : shape_fits (w_amount (-7)) /\ tx_classifiable (w_amount (-7)) /\ out_amount (stored_output (w_out (-7))) = 0 /\
  out_amount (stored_output (w_out (2 ^ 64 + 3))) = 3 /\ u32 (tx_lock_time (w_amount (-7))) /\
  input_to_bytes (w_in [x7a; x7a] 0 0) = Err E_InvalidHex /\
  output_to_bytes (Output C_Output 1 (Script None [Instr OP_PUSHDATA1 (Some (Str [x61]))])) = Err E_TypeError /\
  (exists w, tx_to_bytes w_long = Ok w /\ tx_to_bytes w_fair = Ok w).
Proof.
  destruct (w_amount_ok (-7)) as [S C]. split; [exact S|]. split; [exact C|]. repeat match goal with |- _ /\ _ => split end; try reflexivity; try (vm_compute; congruence); try (split; reflexivity || discriminate).
  destruct ids_shift as (w & L & F & _). exists w. auto.
Qed.
