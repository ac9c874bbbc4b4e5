(** Specifications for transactions. *)
From Verif Require Import Base S_Codec M_Keys M_Script S_Script M_Tx.
Open Scope Z_scope.

(** ** The Bitcoin wire format, by the book *)

(** A little-endian unsigned field of [k] bytes. *)
Definition field (k : nat) (n : Z) (w : bytes) : Prop := length w = k /\ le_val w = n.

(** The serialisations of a list of objects, one after the other. *)
Inductive each {A} (R : A -> bytes -> Prop) : list A -> bytes -> Prop :=
  | each_nil : each R [] []
  | each_cons a w l r : R a w -> each R l r -> each R (a :: l) (w ++ r).

(** A script with its length in front; [size] is the integer encoding. *)
Definition sized_script (size : Z -> bytes -> Prop) (s : script) (w : bytes) : Prop :=
  exists lb sb, size (blen sb) lb /\ wire_script (map content (s_ins s)) sb /\ w = lb ++ sb.

(** Outpoint (id bytes reversed with respect to the text, index), script, sequence number. *)
Definition input_wire (size : Z -> bytes -> Prop) (i : input) (w : bytes) : Prop :=
  exists id ib sb qb, length id = 32%nat /\ hex_text (in_tx_id i) (rev id) /\
    field 4 (in_index i) ib /\ sized_script size (in_script i) sb /\ field 4 (in_seq i) qb /\
    w = id ++ ib ++ sb ++ qb.

Definition output_wire (size : Z -> bytes -> Prop) (o : output) (w : bytes) : Prop :=
  exists ab sb, field 8 (out_amount o) ab /\ sized_script size (out_script o) sb /\ w = ab ++ sb.

Definition tx_wire (size : Z -> bytes -> Prop) (t : tx) (w : bytes) : Prop :=
  exists vb nb iw mb ow lb,
    field 4 (tx_version t) vb /\
    size (blen (tx_inputs t)) nb /\ each (input_wire size) (tx_inputs t) iw /\
    size (blen (tx_outputs t)) mb /\ each (output_wire size) (tx_outputs t) ow /\
    field 4 (tx_lock_time t) lb /\
    w = vb ++ nb ++ iw ++ mb ++ ow ++ lb.

(** Integers in any of the four CompactSize forms, not only the shortest. *)
Definition any_size (n : Z) (l : bytes) : Prop :=
  (exists b, l = [b] /\ bZ b = n /\ n < 253) \/
  (exists d, l = xfd :: d /\ field 2 n d) \/
  (exists d, l = xfe :: d /\ field 4 n d) \/
  (exists d, l = xff :: d /\ field 8 n d).

(** ** Transactions whose fields fit the format *)
Definition u32 (z : Z) : Prop := 0 <= z < 2 ^ 32.
Definition u64 (z : Z) : Prop := 0 <= z < 2 ^ 64.

(** Scripts that can be written: well-formed instructions, no PUSHDATA, a length that fits. *)
Definition writable (s : script) : Prop :=
  Forall well_formed (s_ins s) /\ Forall (fun i => ~ pushdata (i_op i)) (s_ins s) /\
  forall w, wire_script (map content (s_ins s)) w -> u64 (blen w).
Definition input_fits (i : input) : Prop :=
  length (in_tx_id i) = 64%nat /\ Forall is_hex (in_tx_id i) /\
  u32 (in_index i) /\ u32 (in_seq i) /\ writable (in_script i).
Definition output_fits (o : output) : Prop := u64 (out_amount o) /\ writable (out_script o).
Definition tx_fits (t : tx) : Prop :=
  u32 (tx_version t) /\ u32 (tx_lock_time t) /\
  tx_inputs t <> [] /\ u64 (blen (tx_inputs t)) /\ Forall input_fits (tx_inputs t) /\
  tx_outputs t <> [] /\ u64 (blen (tx_outputs t)) /\ Forall output_fits (tx_outputs t).

(** Scripts that the parser can classify. *)
Definition classifiable (s : script) : Prop := ~ breaks_classify (s_ins s).
Definition tx_classifiable (t : tx) : Prop :=
  Forall (fun i => classifiable (in_script i)) (tx_inputs t) /\
  Forall (fun o => classifiable (out_script o)) (tx_outputs t).

(** ** Equality of values, as Python's [==] on these tuples (classes do not matter) *)
Definition same_input (a b : input) : Prop :=
  in_tx_id a = in_tx_id b /\ in_index a = in_index b /\ same_script (in_script a) (in_script b) /\ in_seq a = in_seq b.
Definition same_output (a b : output) : Prop :=
  out_amount a = out_amount b /\ same_script (out_script a) (out_script b).
Definition same_tx (a b : tx) : Prop :=
  Forall2 same_input (tx_inputs a) (tx_inputs b) /\ Forall2 same_output (tx_outputs a) (tx_outputs b) /\
  tx_lock_time a = tx_lock_time b /\ tx_version a = tx_version b.

(** The class of an object read back from bytes is decided by the script's template. *)
Definition read_class (s : script) : Prop :=
  forall c, s_class s = Some c <-> shape c (s_ins s).
Definition output_class_by_template (o : output) : Prop :=
  read_class (out_script o) /\
  (out_class_of o = C_AddressOutput <-> shape PayToPubkeyOut (s_ins (out_script o))) /\
  (out_class_of o = C_ScriptOutput <-> shape PayToScriptOut (s_ins (out_script o))) /\
  (out_class_of o = C_DataOutput <-> shape OpReturnOut (s_ins (out_script o))) /\
  out_class_of o <> C_MultisigOutput.

(** What the parser builds: bytearray data, class by template, lower-case transaction ids. *)
Definition parsed_script (s : script) : Prop := Forall data_ba (s_ins s) /\ read_class s /\ classifiable s.
Definition parsed_input (i : input) : Prop :=
  in_class_of i = C_Input /\ map lower (in_tx_id i) = in_tx_id i /\ parsed_script (in_script i).
Definition parsed_output (o : output) : Prop := output_class_by_template o /\ parsed_script (out_script o).
Definition parsed_tx (t : tx) : Prop :=
  Forall parsed_input (tx_inputs t) /\ Forall parsed_output (tx_outputs t) /\
  tx_inputs t <> [] /\ blen (tx_inputs t) < 2 ^ 60 /\ tx_outputs t <> [] /\ blen (tx_outputs t) < 2 ^ 60.
(** Transactions equal up to the letter case of the ids. *)
Definition lower_input (i : input) : input :=
  Input (in_class_of i) (map lower (in_tx_id i)) (in_index i) (in_script i) (in_seq i).
Definition lower_ids (t : tx) : tx :=
  Tx (map lower_input (tx_inputs t)) (tx_outputs t) (tx_lock_time t) (tx_version t).

(** ** Signing *)

(** Inputs that only differ in their script (and class). *)
Definition same_but_script (a b : input) : Prop :=
  in_tx_id a = in_tx_id b /\ in_index a = in_index b /\ in_seq a = in_seq b.

(** [l'] is [l] except possibly at position [k]. *)
Definition equal_but {A} (k : nat) (l l' : list A) : Prop :=
  length l = length l' /\ forall j, j <> k -> nth_error l j = nth_error l' j.

(** The message signed for input [k]: every other script removed, and the signature type
    appended in four bytes (the SIGHASH_ALL message of Bitcoin, with the input's own script
    standing for the previous output's). *)
Definition strip_script (i : input) : input := Input C_Input (in_tx_id i) (in_index i) (Script None []) (in_seq i).
Definition stripped (k : nat) (l l' : list input) : Prop :=
  length l' = length l /\ forall j i, nth_error l j = Some i ->
    nth_error l' j = Some (if (j =? k)%nat then i else strip_script i).
Definition signing_message (t : tx) (k : nat) (sigtype : Z) (m : bytes) : Prop :=
  exists l w tb, stripped k (tx_inputs t) l /\
    tx_wire compact_size (Tx l (tx_outputs t) (tx_lock_time t) (tx_version t)) w /\ field 4 sigtype tb /\ m = w ++ tb.

(** Objects whose [repr] can be computed. *)
Definition shows (o : obj) : Prop :=
  match o with
  | O_In i => Forall printable (s_ins (in_script i))
  | O_Out o => Forall printable (s_ins (out_script o))
  | O_Other => True
  end.
Definition an_input (o : obj) : Prop := exists i, o = O_In i.
Definition an_output (o : obj) : Prop := exists x, o = O_Out x.
(** The first object of [l] that is not of the kind [ok]. *)
Definition first_wrong (ok : obj -> Prop) (l : list obj) (x : obj) : Prop :=
  exists a r, l = a ++ x :: r /\ Forall ok a /\ ~ ok x.
