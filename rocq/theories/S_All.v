(** Specifications for signing all the inputs of a transaction. *)
From Verif Require Import Base S_Codec M_Hash M_Keys S_Keys M_EC S_EC M_Script S_Script M_Tx S_Tx M_Sign S_Sign.
Open Scope Z_scope.

(** one call of [Transaction.sign] (bitforge/transaction/transaction.py:89-131): the signatures it will get, and its arguments *)
Record job := Job { j_signer : signer; j_keys : list privkey; j_index : Z; j_type : Z }.
Definition run_job (t : tx) (j : job) : res tx := tx_sign (j_signer j) t (j_keys j) (j_index j) (j_type j).
(** one call after the other *)
Fixpoint sign_all (t : tx) (l : list job) : res tx :=
  match l with [] => Ok t | j :: l => let! t' := run_job t j in sign_all t' l end.
(** each call for another input, counted from the first *)
Definition distinct (l : list job) : Prop := NoDup (map j_index l) /\ Forall (fun j => 0 <= j_index j) l.

(** the message that the network hashes to check a signature of input [j] with hash type ALL: of the transaction as it is sent,
    every input with the empty script, except input [j] with the script [code] of the output that it spends *)
Definition signed_input (code : bytes) (i : input) (w : bytes) : Prop :=
  exists id ib nb qb, length id = 32%nat /\ hex_text (in_tx_id i) (rev id) /\ field 4 (in_index i) ib /\ compact_size (blen code) nb /\
    field 4 (in_seq i) qb /\ w = id ++ ib ++ nb ++ code ++ qb.
Definition network_message (t : tx) (j : nat) (code : bytes) (sigtype : Z) (m : bytes) : Prop :=
  exists vb nb ws mb ow lb tb, field 4 (tx_version t) vb /\ compact_size (blen (tx_inputs t)) nb /\
    length ws = length (tx_inputs t) /\
    (forall k i w, nth_error (tx_inputs t) k = Some i -> nth_error ws k = Some w -> signed_input (if (k =? j)%nat then code else []) i w) /\
    compact_size (blen (tx_outputs t)) mb /\ each (output_wire compact_size) (tx_outputs t) ow /\ field 4 (tx_lock_time t) lb /\ field 4 sigtype tb /\
    m = vb ++ nb ++ concat ws ++ mb ++ ow ++ lb ++ tb.
(** the script of an output to the key hash [h] *)
Definition key_hash_code (h : bytes) : bytes := [x76; xa9; x14] ++ h ++ [x88; xac].

(** transactions that may differ in scripts only *)
Definition same_but_scripts (t t' : tx) : Prop :=
  tx_outputs t' = tx_outputs t /\ tx_lock_time t' = tx_lock_time t /\ tx_version t' = tx_version t /\ Forall2 same_but_script (tx_inputs t) (tx_inputs t').
