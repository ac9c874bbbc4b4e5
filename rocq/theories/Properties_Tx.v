(** Property theorems C37-C45 and C47-C50: transactions. *)
From Coq Require Import String.
From Verif Require Import Base M_Hash M_Codec S_Codec P_Codec M_Keys S_Keys P_Keys M_EC M_Script S_Script P_Script M_Tx S_Tx P_Tx P_TxSign.
Open Scope Z_scope.

(** Example objects: an address input, a plain input, an address output and a data output. *)
Definition ex_hash : bytes := repeat x07 20.
Definition ex_p2pkh (d : pyb) : script := Script (Some PayToPubkeyOut)
  [Instr x76 None; Instr xa9 None; Instr x14 (Some d); Instr x88 None; Instr xac None].
Definition ex_return : script := Script (Some OpReturnOut) [Instr x6a None; Instr x02 (Some (Str [x68; x69]))].
Definition ex_id (c : byte) : bytes := repeat c 64.
Definition ex_in1 : input := Input C_AddressInput (ex_id x61) 1 (ex_p2pkh (Str ex_hash)) 4294967295.
Definition ex_in2 : input := Input C_Input (ex_id x42) 0 (Script None [Instr x51 None]) 7.
Definition ex_out1 : output := Output C_AddressOutput 5000000000 (ex_p2pkh (Str ex_hash)).
Definition ex_out2 : output := Output C_DataOutput 0 ex_return.
Definition ex_tx : tx := Tx [ex_in1; ex_in2] [ex_out1; ex_out2] 500000 1.
Definition ex_key : privkey := PrivateKey 1 livenet true.
Definition ex_sg : signer := fun n z d => [x30; Zb (Z.of_nat n); Zb z] ++ firstn 6 d.

(** *** C37 *)
Theorem C37_constructs : forall ins outs lt v t, new_tx ins outs lt v = Ok t <->
  exists i o, ins = map O_In i /\ outs = map O_Out o /\ i <> [] /\ o <> [] /\ u32 lt /\ t = Tx i o lt v.
Proof. exact new_tx_ok. Qed.
Print Assumptions C37_constructs.

Theorem C37_errors : forall ins outs lt v e, new_tx ins outs lt v = Err e <->
  (ins = [] /\ e = E_Tx_NoInputs) \/
  (exists x, first_wrong an_input ins x /\ (shows x /\ e = E_Tx_NotAnInput \/ ~ shows x /\ e = E_KeyError)) \/
  (ins <> [] /\ Forall an_input ins /\
    ((outs = [] /\ e = E_Tx_NoOutputs) \/
     (exists x, first_wrong an_output outs x /\ (shows x /\ e = E_Tx_NotAnOutput \/ ~ shows x /\ e = E_KeyError)) \/
     (outs <> [] /\ Forall an_output outs /\ ~ u32 lt /\ e = E_Tx_InvalidLockTime))).
Proof. exact new_tx_err. Qed.
Print Assumptions C37_errors.

Example C37_ex : new_tx [O_In ex_in1; O_In ex_in2] [O_Out ex_out1; O_Out ex_out2] 500000 1 = Ok ex_tx
  /\ new_tx [O_In ex_in1; O_Out ex_out1; O_Other] [] 0 1 = Err E_Tx_NotAnInput
  /\ new_tx [O_In ex_in1] [O_Out ex_out1] (2 ^ 32) 1 = Err E_Tx_InvalidLockTime
  /\ new_tx [O_Out (Output C_Output 0 (Script None [Instr x65 None]))] [] 0 1 = Err E_KeyError.
Proof. repeat split. Qed.

(** *** C38 *)
Theorem C38_wire_format : forall t w, tx_fits t -> (tx_to_bytes t = Ok w <-> tx_wire compact_size t w).
Proof. exact tx_write. Qed.
Print Assumptions C38_wire_format.

Theorem C38_total : forall t, tx_fits t -> exists w, tx_to_bytes t = Ok w.
Proof. exact tx_write_total. Qed.
Print Assumptions C38_total.

Theorem C38_input : forall i w, input_fits i -> (input_to_bytes i = Ok w <-> input_wire compact_size i w).
Proof. exact input_write. Qed.
Print Assumptions C38_input.

Theorem C38_output : forall o w, output_fits o -> (output_to_bytes o = Ok w <-> output_wire compact_size o w).
Proof. exact output_write. Qed.
Print Assumptions C38_output.

Theorem C38_injective : forall t t' w, tx_fits t -> tx_fits t' -> tx_to_bytes t = Ok w -> tx_to_bytes t' = Ok w ->
  same_tx (lower_ids t) (lower_ids t').
Proof. exact tx_bytes_injective. Qed.
Print Assumptions C38_injective.

Theorem C38_input_hex : forall i h, input_fits i ->
  (input_to_hex i = Ok h <-> exists w, input_wire compact_size i w /\ hex_text h w /\ map lower h = h).
Proof. exact input_hex_write. Qed.
Print Assumptions C38_input_hex.

Theorem C38_output_hex : forall o h, output_fits o ->
  (output_to_hex o = Ok h <-> exists w, output_wire compact_size o w /\ hex_text h w /\ map lower h = h).
Proof. exact output_hex_write. Qed.
Print Assumptions C38_output_hex.

Example C38_ex : tx_fits ex_tx /\ exists w, tx_to_bytes ex_tx = Ok w /\ blen w = 165
  /\ firstn 5 w = [x01; x00; x00; x00; x02] /\ skipn 161 w = [x20; xa1; x07; x00].
Proof. split; [apply tx_fitsb_ok; vm_compute; reflexivity|]. eexists. split; [vm_compute; reflexivity|]. repeat split. Qed.

(** *** C39 *)
Theorem C39_roundtrip : forall t, tx_fits t -> tx_classifiable t -> blen (tx_inputs t) < 2 ^ 60 -> blen (tx_outputs t) < 2 ^ 60 ->
  exists w t', tx_to_bytes t = Ok w /\ tx_from_bytes w = Ok t' /\ same_tx t' (lower_ids t) /\ parsed_tx t'.
Proof. exact tx_roundtrip. Qed.
Print Assumptions C39_roundtrip.

Theorem C39_hex_roundtrip : forall t, tx_fits t -> tx_classifiable t -> blen (tx_inputs t) < 2 ^ 60 -> blen (tx_outputs t) < 2 ^ 60 ->
  exists h t', tx_to_hex t = Ok h /\ tx_from_hex h = Ok t' /\ same_tx t' (lower_ids t).
Proof. exact tx_hex_roundtrip. Qed.
Print Assumptions C39_hex_roundtrip.

Theorem C39_parse_print : forall t w rest, tx_wire compact_size t w -> tx_from_bytes (w ++ rest) = Ok t ->
  Forall (fun i => no_pushdata (in_script i)) (tx_inputs t) -> Forall (fun o => no_pushdata (out_script o)) (tx_outputs t) ->
  tx_to_bytes t = Ok w.
Proof. exact tx_parse_print. Qed.
Print Assumptions C39_parse_print.

Example C39_ex : tx_fits ex_tx /\ tx_classifiable ex_tx /\ exists w, tx_to_bytes ex_tx = Ok w /\
  tx_from_bytes w = Ok (Tx [Input C_Input (ex_id x61) 1 (ex_p2pkh (BA ex_hash)) 4294967295;
                            Input C_Input (ex_id x62) 0 (Script None [Instr x51 None]) 7]
    [Output C_AddressOutput 5000000000 (ex_p2pkh (BA ex_hash));
     Output C_DataOutput 0 (Script (Some OpReturnOut) [Instr x6a None; Instr x02 (Some (BA [x68; x69]))])] 500000 1).
Proof.
  split; [apply tx_fitsb_ok; vm_compute; reflexivity|]. split; [apply tx_classifiableb_ok; vm_compute; reflexivity|].
  eexists. split; [vm_compute; reflexivity | vm_compute; reflexivity].
Qed.

(** *** C40 *)
Theorem C40_grammar : forall b t, tx_from_bytes b = Ok t <->
  exists w rest, b = w ++ rest /\ tx_wire any_size t w /\ parsed_tx t.
Proof. exact tx_from_bytes_ok. Qed.
Print Assumptions C40_grammar.

Theorem C40_trailing : forall b t rest, tx_from_bytes b = Ok t -> tx_from_bytes (b ++ rest) = Ok t.
Proof. exact tx_from_bytes_trailing. Qed.
Print Assumptions C40_trailing.

Theorem C40_truncated : forall t w u v, tx_wire any_size t w -> parsed_tx t -> w = u ++ v -> v <> [] ->
  exists r n, tx_from_bytes u = Err (E_InsufficientData r n).
Proof. exact tx_truncated. Qed.
Print Assumptions C40_truncated.

Definition ex_min : bytes := [x01; x00; x00; x00; x01] ++ repeat x00 32 ++ [x00; x00; x00; x00; x00; xff; xff; xff; xff]
  ++ [x01; x05; x00; x00; x00; x00; x00; x00; x00; x01; x51; x00; x00; x00; x00].
Definition ex_min_wide : bytes := [x01; x00; x00; x00; xfd; x01; x00] ++ repeat x00 32 ++ [x00; x00; x00; x00; x00; xff; xff; xff; xff]
  ++ [x01; x05; x00; x00; x00; x00; x00; x00; x00; x01; x51; x00; x00; x00; x00].
(** Parsing is not injective: trailing bytes and wide counts are accepted. *)
Theorem C40_canonical_refuted : exists b b' b'' t, b <> b' /\ b <> b'' /\ b'' <> b' /\ (length b = length b'' - 1)%nat /\
  tx_from_bytes b = Ok t /\ tx_from_bytes b' = Ok t /\ tx_from_bytes b'' = Ok t.
Proof.
  exists ex_min, ex_min_wide, (ex_min ++ [x00]), (Tx [Input C_Input (ex_id x30) 0 (Script None []) 4294967295] [Output C_Output 5 (Script None [Instr x51 None])] 0 1).
  repeat split; try discriminate; vm_compute; reflexivity.
Qed.
Print Assumptions C40_canonical_refuted.

Theorem C40_input : forall cls b i, input_from_bytes cls b = Ok i <-> exists w rest, b = w ++ rest /\ input_wire any_size i w /\
  in_class_of i = cls /\ map lower (in_tx_id i) = in_tx_id i /\ parsed_script (in_script i).
Proof. exact input_from_bytes_iff. Qed.
Print Assumptions C40_input.

Theorem C40_output : forall b o, output_from_bytes b = Ok o <-> exists w rest, b = w ++ rest /\ output_wire any_size o w /\ parsed_output o.
Proof. exact output_from_bytes_iff. Qed.
Print Assumptions C40_output.

Theorem C40_input_hex : forall cls h i, input_from_hex cls h = Ok i <-> exists w rest, hex_text h (w ++ rest) /\ input_wire any_size i w /\
  in_class_of i = cls /\ map lower (in_tx_id i) = in_tx_id i /\ parsed_script (in_script i).
Proof. exact input_hex_read. Qed.
Print Assumptions C40_input_hex.

Theorem C40_output_hex : forall h o, output_from_hex h = Ok o <-> exists w rest, hex_text h (w ++ rest) /\ output_wire any_size o w /\ parsed_output o.
Proof. exact output_hex_read. Qed.
Print Assumptions C40_output_hex.

Example C40_ex : tx_from_bytes (firstn 30 ex_min) = Err (E_InsufficientData 25 32)
  /\ tx_from_bytes (firstn 60 ex_min) = Err (E_InsufficientData 3 4) /\ tx_from_bytes [] = Err (E_InsufficientData 0 4).
Proof. repeat split. Qed.

(** *** C41 *)
Theorem C41_frame : forall sg t keys k st t', 0 <= k -> tx_sign sg t keys k st = Ok t' ->
  tx_outputs t' = tx_outputs t /\ tx_lock_time t' = tx_lock_time t /\ tx_version t' = tx_version t /\
  equal_but (Z.to_nat k) (tx_inputs t) (tx_inputs t') /\
  exists i i', nth_error (tx_inputs t) (Z.to_nat k) = Some i /\ nth_error (tx_inputs t') (Z.to_nat k) = Some i' /\
    same_but_script i i' /\ in_class_of i' = C_Input.
Proof. exact sign_frame. Qed.
Print Assumptions C41_frame.

Example C41_ex : exists t', tx_sign ex_sg ex_tx [ex_key] 0 1 = Ok t' /\ tx_inputs t' <> tx_inputs ex_tx.
Proof. eexists. split; [vm_compute; reflexivity|]. intros H. discriminate H. Qed.

(** *** C42 *)
Theorem C42_message : forall t k st m, tx_fits t -> u32 st ->
  (tx_preimage t (Z.of_nat k) st = Ok m <-> signing_message t k st m).
Proof. exact preimage_message. Qed.
Print Assumptions C42_message.

Theorem C42_other_scripts : forall t t' k st,
  tx_outputs t' = tx_outputs t -> tx_lock_time t' = tx_lock_time t -> tx_version t' = tx_version t ->
  Forall2 same_but_script (tx_inputs t) (tx_inputs t') ->
  (0 <= k -> nth_error (tx_inputs t) (Z.to_nat k) = nth_error (tx_inputs t') (Z.to_nat k)) ->
  tx_preimage t' k st = tx_preimage t k st.
Proof. exact preimage_other_scripts. Qed.
Print Assumptions C42_other_scripts.

Theorem C42_commits : forall t t' k k' st st' m i i',
  tx_fits t -> tx_fits t' -> u32 st -> u32 st' ->
  nth_error (tx_inputs t) k = Some i -> nth_error (tx_inputs t') k' = Some i' ->
  signing_message t k st m -> signing_message t' k' st' m ->
  st = st' /\ tx_version t = tx_version t' /\ tx_lock_time t = tx_lock_time t' /\
  Forall2 same_output (tx_outputs t) (tx_outputs t') /\
  Forall2 (fun a b => same_but_script (lower_input a) (lower_input b)) (tx_inputs t) (tx_inputs t') /\
  ((k = k' /\ same_script (in_script i) (in_script i')) \/ (s_ins (in_script i) = [] /\ s_ins (in_script i') = [])).
Proof. exact message_commits. Qed.
Print Assumptions C42_commits.

Theorem C42_signs_message : forall sg t keys k st t', tx_sign sg t keys k st = Ok t' ->
  exists m inp inp', tx_preimage t k st = Ok m /\ py_index (tx_inputs t) k = Ok inp /\
    input_sign sg inp keys (sha256 (sha256 m)) st = Ok inp' /\ tx_inputs t <> [] /\ tx_outputs t <> [] /\ u32 (tx_lock_time t) /\
    t' = Tx (mapi_from (fun i x => if i =? k then inp' else x) 0 (tx_inputs t)) (tx_outputs t) (tx_lock_time t) (tx_version t).
Proof. exact tx_sign_inv. Qed.
Print Assumptions C42_signs_message.

Theorem C42_commute : forall sg1 sg2 t t1 t12 keys1 keys2 i j st1 st2, 0 <= i -> 0 <= j -> i <> j ->
  tx_sign sg1 t keys1 i st1 = Ok t1 -> tx_sign sg2 t1 keys2 j st2 = Ok t12 ->
  exists t2, tx_sign sg2 t keys2 j st2 = Ok t2 /\ tx_sign sg1 t2 keys1 i st1 = Ok t12.
Proof. exact sign_commute. Qed.
Print Assumptions C42_commute.

Example C42_ex : exists m, tx_preimage ex_tx 0 1 = Ok m /\ signing_message ex_tx 0 1 m /\ blen m = 168
  /\ tx_preimage (Tx [ex_in1; input_remove_script ex_in2] [ex_out1; ex_out2] 500000 1) 0 1 = Ok m.
Proof.
  eexists. split; [vm_compute; reflexivity|]. split; [|repeat split].
  apply preimage_message; [apply tx_fitsb_ok; vm_compute; reflexivity | split; [discriminate | reflexivity] | vm_compute; reflexivity].
Qed.

(** *** C43 *)
Theorem C43_sigtype_is_suffix : forall t k st st' m m', tx_preimage t k st = Ok m -> tx_preimage t k st' = Ok m' ->
  exists w, m = w ++ encode_int st false (Some 4%nat) /\ m' = w ++ encode_int st' false (Some 4%nat).
Proof. exact sigtype_only_suffix. Qed.
Print Assumptions C43_sigtype_is_suffix.

Theorem C43_every_type_covers_all : forall t t' k k' st m, tx_fits t -> tx_fits t' -> u32 st ->
  (k < List.length (tx_inputs t))%nat -> (k' < List.length (tx_inputs t'))%nat ->
  signing_message t k st m -> signing_message t' k' st m ->
  Forall2 same_output (tx_outputs t) (tx_outputs t') /\ List.length (tx_inputs t) = List.length (tx_inputs t') /\
  Forall2 (fun a b => in_seq a = in_seq b) (tx_inputs t) (tx_inputs t').
Proof. exact message_all_outputs. Qed.
Print Assumptions C43_every_type_covers_all.

(** With SIGHASH_NONE (2) the outputs should not matter, with SIGHASH_SINGLE (3) only the
    output of the same index, with SIGHASH_ANYONECANPAY (0x80) no other input. *)
Theorem C43_none_refuted : exists t t' m m', tx_inputs t = tx_inputs t' /\ tx_lock_time t = tx_lock_time t' /\ tx_version t = tx_version t' /\
  tx_preimage t 0 2 = Ok m /\ tx_preimage t' 0 2 = Ok m' /\ m <> m'.
Proof.
  exists ex_tx, (Tx [ex_in1; ex_in2] [ex_out2] 500000 1). eexists. eexists. do 3 (split; [reflexivity|]).
  split; [vm_compute; reflexivity|]. split; [vm_compute; reflexivity|]. discriminate.
Qed.
Print Assumptions C43_none_refuted.
Theorem C43_single_refuted : exists t t' m m', tx_inputs t = tx_inputs t' /\ tx_lock_time t = tx_lock_time t' /\ tx_version t = tx_version t' /\
  nth_error (tx_outputs t) 0 = nth_error (tx_outputs t') 0 /\ tx_preimage t 0 3 = Ok m /\ tx_preimage t' 0 3 = Ok m' /\ m <> m'.
Proof.
  exists ex_tx, (Tx [ex_in1; ex_in2] [ex_out1] 500000 1). eexists. eexists. do 4 (split; [reflexivity|]).
  split; [vm_compute; reflexivity|]. split; [vm_compute; reflexivity|]. discriminate.
Qed.
Print Assumptions C43_single_refuted.
Theorem C43_anyonecanpay_refuted : exists t t' m m', nth_error (tx_inputs t) 0 = nth_error (tx_inputs t') 0 /\ tx_outputs t = tx_outputs t' /\
  tx_lock_time t = tx_lock_time t' /\ tx_version t = tx_version t' /\ tx_preimage t 0 129 = Ok m /\ tx_preimage t' 0 129 = Ok m' /\ m <> m'.
Proof.
  exists ex_tx, (Tx [ex_in1] [ex_out1; ex_out2] 500000 1). eexists. eexists. do 4 (split; [reflexivity|]).
  split; [vm_compute; reflexivity|]. split; [vm_compute; reflexivity|]. discriminate.
Qed.
Print Assumptions C43_anyonecanpay_refuted.
Example C43_ex : u32 129 /\ exists m, tx_preimage ex_tx 0 129 = Ok m /\ skipn 164 m = [x81; x00; x00; x00].
Proof. split; [split; [discriminate | reflexivity]|]. eexists. split; [vm_compute; reflexivity | vm_compute; reflexivity]. Qed.

(** *** C44 *)
Theorem C44_out_of_range : forall sg t keys k st, tx_fits t -> ~ - blen (tx_inputs t) <= k < blen (tx_inputs t) ->
  tx_sign sg t keys k st = Err E_IndexError.
Proof. exact sign_out_of_range. Qed.
Print Assumptions C44_out_of_range.

Theorem C44_only_in_range : forall sg t keys k st t', tx_sign sg t keys k st = Ok t' ->
  - blen (tx_inputs t) <= k < blen (tx_inputs t).
Proof. exact sign_only_in_range. Qed.
Print Assumptions C44_only_in_range.

Theorem C44_negative_is_identity : forall sg t keys k st t', k < 0 -> tx_sign sg t keys k st = Ok t' -> t' = t.
Proof. exact sign_negative. Qed.
Print Assumptions C44_negative_is_identity.

Theorem C44_plain_input : forall sg t keys k st i, tx_fits t -> py_index (tx_inputs t) k = Ok i -> in_class_of i = C_Input ->
  tx_sign sg t keys k st = Err E_In_UnknownSignatureMethod.
Proof. exact sign_plain. Qed.
Print Assumptions C44_plain_input.

Theorem C44_sign_again : forall sg sg' t keys keys' k st st' t', 0 <= k -> tx_sign sg t keys k st = Ok t' ->
  exists e, tx_sign sg' t' keys' k st' = Err e.
Proof. exact sign_again. Qed.
Print Assumptions C44_sign_again.

Theorem C44_parsed_never_signs : forall sg b t keys k st, tx_from_bytes b = Ok t -> exists e, tx_sign sg t keys k st = Err e.
Proof. exact sign_parsed. Qed.
Print Assumptions C44_parsed_never_signs.

Example C44_ex : tx_sign ex_sg ex_tx [ex_key] 2 1 = Err E_IndexError /\ tx_sign ex_sg ex_tx [ex_key] (-2) 1 = Ok ex_tx
  /\ tx_sign ex_sg ex_tx [ex_key] 1 1 = Err E_In_UnknownSignatureMethod.
Proof. split; [|split]; vm_compute; reflexivity. Qed.

(** *** C45 *)
Theorem C45_created : forall id n a q i, address_input_create id n a q = Ok i ->
  in_class_of i = C_AddressInput /\ in_tx_id i = id /\ in_index i = n /\ in_seq i = q /\
  s_class (in_script i) = Some PayToPubkeyOut /\ shape PayToPubkeyOut (s_ins (in_script i)) /\
  get_address_hash (in_script i) = Ok (Some (a_phash a)).
Proof. exact address_create_ok. Qed.
Print Assumptions C45_created.

Theorem C45_key_count : forall sg i keys p st, in_class_of i = C_AddressInput -> (forall k, keys <> [k]) ->
  input_sign sg i keys p st = Err (E_In_InvalidSignatureCount 1 (blen keys)).
Proof. exact address_sign_count. Qed.
Print Assumptions C45_key_count.

Theorem C45_sign : forall sg i k p st i', in_class_of i = C_AddressInput -> input_sign sg i [k] p st = Ok i' ->
  exists pub kb, priv_to_public_key k = Ok pub /\ pk_to_bytes pub = Ok kb /\ 0 <= st <= 255 /\
    s_class (in_script i') = Some PayToPubkeyIn /\ shape PayToPubkeyIn (s_ins (in_script i')) /\
    get_signature (in_script i') = Ok (Some (Str (sg 0%nat (k_secret k) p ++ [Zb st]))) /\
    data_at (in_script i') 1 = Ok (Some (Str kb)).
Proof. exact address_sign_ok. Qed.
Print Assumptions C45_sign.

Theorem C45_can_sign : forall id n a q i k, address_input_create id n a q = Ok i -> forall b, address_can_sign i [k] = Ok b ->
  exists ka, priv_to_address k = Ok ka /\ (b = true <-> pyb_bytes (a_phash ka) = pyb_bytes (a_phash a)).
Proof. exact address_can_sign_ok. Qed.
Print Assumptions C45_can_sign.

Theorem C45_can_sign_count : forall i keys, (forall k, keys <> [k]) -> address_can_sign i keys = Ok false.
Proof. exact address_can_sign_count. Qed.
Print Assumptions C45_can_sign_count.

Theorem C45_key_unchecked : forall sg i s keys p st, in_class_of i = C_AddressInput ->
  input_sign sg (Input C_AddressInput (in_tx_id i) (in_index i) s (in_seq i)) keys p st = input_sign sg i keys p st.
Proof. exact address_sign_ignores_script. Qed.
Print Assumptions C45_key_unchecked.

(** A key that [can_sign] refuses signs anyway. *)
Theorem C45_wrong_key_refuted : exists sg i k p i', in_class_of i = C_AddressInput /\ address_can_sign i [k] = Ok false /\
  input_sign sg i [k] p 1 = Ok i'.
Proof.
  exists ex_sg, ex_in1, ex_key, (repeat x00 32). eexists. split; [reflexivity|]. split; [vm_compute; reflexivity | vm_compute; reflexivity].
Qed.
Print Assumptions C45_wrong_key_refuted.
Example C45_ex : exists i, address_input_create (ex_id x61) 1 (Address (Str ex_hash) livenet T_PublicKey) 4294967295 = Ok i /\ i = ex_in1
  /\ input_sign ex_sg i [] [] 1 = Err (E_In_InvalidSignatureCount 1 0) /\ exists i', input_sign ex_sg i [ex_key] (repeat x09 32) 1 = Ok i'
  /\ get_signature (in_script i') = Ok (Some (Str [x30; x00; x01; x09; x09; x09; x09; x09; x09; x01])).
Proof. eexists. split; [vm_compute; reflexivity|]. split; [reflexivity|]. split; [reflexivity|]. eexists. split; [vm_compute; reflexivity | vm_compute; reflexivity]. Qed.

(** *** C47 *)
Theorem C47_get_id : forall t h, tx_fits t ->
  (tx_get_id t = Ok h <-> exists w, tx_wire compact_size t w /\ h = encode_hex (sha256 (sha256 w))).
Proof. exact get_id_ok. Qed.
Print Assumptions C47_get_id.

Theorem C47_outpoint_reversed : forall i w, input_to_bytes i = Ok w -> forall d, hex_text (in_tx_id i) d -> exists r, w = rev d ++ r.
Proof. exact outpoint_reversed. Qed.
Print Assumptions C47_outpoint_reversed.

(** An outpoint refers to a transaction by its hash; one made from [get_id] does not. *)
Theorem C47_outpoint_refuted : exists t w h i v, tx_to_bytes t = Ok w /\ tx_get_id t = Ok h /\ in_tx_id i = h /\ input_to_bytes i = Ok v /\
  firstn 32 v <> sha256 (sha256 w).
Proof.
  exists (Tx [ex_in2] [Output C_Output 5 (Script None [])] 0 1). eexists. eexists. eexists (Input C_Input _ 0 (Script None []) 0). eexists.
  split; [vm_compute; reflexivity|]. split; [vm_compute; reflexivity|]. split; [reflexivity|]. split; [vm_compute; reflexivity|].
  intros H. vm_compute in H. discriminate H.
Qed.
Print Assumptions C47_outpoint_refuted.
Example C47_ex : tx_fits ex_tx /\ exists d, hex_text (in_tx_id ex_in2) d /\ d = repeat xbb 32.
Proof. split; [apply tx_fitsb_ok; vm_compute; reflexivity|]. exists (repeat xbb 32). split; [|reflexivity]. apply decode_hex_iff. vm_compute. reflexivity. Qed.

(** *** C48 *)
Theorem C48_output_create : forall a s o, output_create a s = Ok o <->
  out_amount o = a /\ s_ins (out_script o) = s_ins s /\ classifiable s /\ output_class_by_template o.
Proof. exact output_create_iff. Qed.
Print Assumptions C48_output_create.

Theorem C48_output_create_fails : forall a s e, output_create a s = Err e <-> e = E_AttributeError /\ ~ classifiable s.
Proof. exact output_create_err. Qed.
Print Assumptions C48_output_create_fails.

Theorem C48_address_output : forall amt a o, address_output_create amt a = Ok o ->
  out_class_of o = C_AddressOutput /\ out_amount o = amt /\ shape PayToPubkeyOut (s_ins (out_script o)) /\
  get_address_hash (out_script o) = Ok (Some (a_phash a)).
Proof. exact address_output_ok. Qed.
Print Assumptions C48_address_output.

Theorem C48_script_output : forall amt r o, script_output_create amt r = Ok o ->
  exists rb, script_to_bytes r = Ok rb /\ out_class_of o = C_ScriptOutput /\ out_amount o = amt /\ shape PayToScriptOut (s_ins (out_script o)) /\
  get_script_hash (out_script o) = Ok (Some (Str (ripemd160 (sha256 rb)))).
Proof. exact script_output_ok. Qed.
Print Assumptions C48_script_output.

Theorem C48_multisig_output : forall amt ks m o, multisig_output_create amt ks m = Ok o ->
  out_class_of o = C_MultisigOutput /\ out_amount o = amt /\ s_class (out_script o) = Some RedeemMultisig /\
  (ks <> [] -> shape RedeemMultisig (s_ins (out_script o))).
Proof. exact multisig_output_ok. Qed.
Print Assumptions C48_multisig_output.

Theorem C48_multisig_never_p2sh_refuted : forall amt ks m o, multisig_output_create amt ks m = Ok o -> ~ shape PayToScriptOut (s_ins (out_script o)).
Proof. exact multisig_output_not_p2sh. Qed.
Print Assumptions C48_multisig_never_p2sh_refuted.

Theorem C48_multisig_not_read_back : forall b o, output_from_bytes b = Ok o -> out_class_of o <> C_MultisigOutput.
Proof. exact multisig_output_reads_plain. Qed.
Print Assumptions C48_multisig_not_read_back.

Definition ex_pub : pubkey := PublicKey (secp_gx, secp_gy) livenet true.
Example C48_ex : output_create 5 (ex_p2pkh (BA ex_hash)) = Ok (Output C_AddressOutput 5 (ex_p2pkh (BA ex_hash)))
  /\ (exists o, script_output_create 5 (Script None [Instr x51 None]) = Ok o) /\ exists o, multisig_output_create 5 [ex_pub; ex_pub] 1 = Ok o.
Proof. split; [reflexivity|]. split; eexists; vm_compute; reflexivity. Qed.

(** *** C49 *)
Theorem C49_data_output : forall d o, data_output_create d = Ok o <->
  exists b, d = Str b /\ 1 <= blen b <= 80 /\ out_class_of o = C_DataOutput /\ out_amount o = 0 /\
    s_class (out_script o) = Some OpReturnOut /\
    map content (s_ins (out_script o)) = [(x6a, None); (Zb (if blen b <=? 75 then blen b else 76), Some b)] /\
    Forall data_str (s_ins (out_script o)).
Proof. exact data_output_ok. Qed.
Print Assumptions C49_data_output.

Theorem C49_too_much : forall d, 80 < pyb_len d -> data_output_create d = Err E_Out_TooMuchData.
Proof. exact data_output_too_much. Qed.
Print Assumptions C49_too_much.

Theorem C49_empty_or_bytearray : forall d, pyb_len d <= 80 -> (exists b, d = BA b) \/ d = Str [] ->
  data_output_create d = Err (match d with BA _ => E_TypeError | Str _ => E_Op_InvalidConstPushLength end).
Proof. exact data_output_others. Qed.
Print Assumptions C49_empty_or_bytearray.

Theorem C49_unserializable_refuted : forall d o, data_output_create d = Ok o -> 76 <= pyb_len d -> output_to_bytes o = Err E_TypeError.
Proof. exact data_output_unwritable. Qed.
Print Assumptions C49_unserializable_refuted.

Example C49_ex : data_output_create (Str [x68; x69]) = Ok ex_out2
  /\ (exists o, data_output_create (Str (repeat x61 80)) = Ok o /\ output_to_bytes o = Err E_TypeError)
  /\ data_output_create (Str (repeat x61 81)) = Err E_Out_TooMuchData.
Proof. split; [reflexivity|]. split; [eexists; split; [vm_compute; reflexivity | vm_compute; reflexivity] | reflexivity]. Qed.

(** *** C50 *)
Theorem C50_created : forall id n s q i, input_create id n s q = Ok i <->
  in_tx_id i = id /\ in_index i = n /\ in_seq i = q /\ s_ins (in_script i) = s_ins s /\
  ((shape PayToPubkeyIn (s_ins s) /\ in_class_of i = C_AddressInput /\ s_class (in_script i) = Some PayToPubkeyIn) \/
   (shape PayToScriptIn (s_ins s) /\ in_class_of i = C_ScriptInput /\ s_class (in_script i) = Some PayToScriptIn)).
Proof. exact input_create_ok. Qed.
Print Assumptions C50_created.

Theorem C50_other_scripts : forall id n s q, ~ shape PayToPubkeyIn (s_ins s) -> ~ shape PayToScriptIn (s_ins s) -> classifiable s ->
  input_create id n s q = Err E_NameError.
Proof. exact input_create_other. Qed.
Print Assumptions C50_other_scripts.

Theorem C50_unclassifiable : forall id n s q, ~ classifiable s -> input_create id n s q = Err E_AttributeError.
Proof. exact input_create_breaks. Qed.
Print Assumptions C50_unclassifiable.

Theorem C50_cannot_sign : forall id n s q i k b, input_create id n s q = Ok i -> address_can_sign i [k] <> Ok b.
Proof. exact created_cannot_sign. Qed.
Print Assumptions C50_cannot_sign.

Example C50_ex : (exists i, input_create (ex_id x61) 0 (Script None [Instr x01 (Some (Str [x41])); Instr x02 (Some (BA [x42; x43]))]) 0 = Ok i
    /\ in_class_of i = C_AddressInput)
  /\ input_create (ex_id x61) 0 (ex_p2pkh (Str ex_hash)) 0 = Err E_NameError.
Proof. split; [eexists; split; reflexivity | reflexivity]. Qed.

(** *** C70 *)
Theorem C70_signatures : forall sg i keys p st i', in_class_of i = C_ScriptInput \/ in_class_of i = C_MultisigInput -> keys <> [] ->
  input_sign sg i keys p st = Ok i' ->
  exists rb sigs, script_to_bytes (in_script i) = Ok rb /\ 0 <= st <= 255 /\ List.length sigs = List.length keys /\
    (forall j k, nth_error keys j = Some k -> nth_error sigs j = Some (Str (sg j (k_secret k) p ++ [Zb st]))) /\
    s_class (in_script i') = Some PayToScriptIn /\ shape PayToScriptIn (s_ins (in_script i')) /\
    get_signatures (in_script i') = map Some sigs /\ get_script (in_script i') = script_from_bytes rb.
Proof. exact script_sign_ok. Qed.
Print Assumptions C70_signatures.

Theorem C70_script_created : forall id n s q, let i := script_input_create id n s q in
  in_class_of i = C_ScriptInput /\ in_tx_id i = id /\ in_index i = n /\ in_seq i = q /\ in_script i = s.
Proof. exact script_create_fields. Qed.
Print Assumptions C70_script_created.

Theorem C70_multisig_created : forall id n keys m q i, multisig_input_create id n keys m q = Ok i ->
  in_class_of i = C_MultisigInput /\ in_tx_id i = id /\ in_index i = n /\ in_seq i = q /\ multisig_create keys m = Ok (in_script i).
Proof. exact multisig_create_fields. Qed.
Print Assumptions C70_multisig_created.

Example C70_ex : exists i', input_sign ex_sg (Input C_ScriptInput (ex_id x61) 0 (Script None [Instr x51 None]) 0)
    [ex_key; PrivateKey 2 livenet true] (repeat x09 32) 1 = Ok i' /\ script_to_bytes (in_script i') =
    Ok [x00; x0a; x30; x00; x01; x09; x09; x09; x09; x09; x09; x01; x0a; x30; x01; x02; x09; x09; x09; x09; x09; x09; x01; x01; x51].
Proof. eexists. split; [vm_compute; reflexivity | vm_compute; reflexivity]. Qed.
Example C70_ex_created : exists i, multisig_input_create (ex_id x61) 3 [PublicKey (5, 6) livenet true; PublicKey (7, 9) testnet false] 2 77 = Ok i
  /\ in_class_of i = C_MultisigInput /\ get_min_signatures (in_script i) = Ok 2 /\ in_seq i = 77.
Proof. eexists. split; [vm_compute; reflexivity|]. split; [reflexivity|]. split; reflexivity. Qed.
