(** Property theorems C99-C100: the messages of exceptions and the texts of objects. *)
From Coq Require Import ZArith List String.
From Verif Require Import Base M_Hash M_Codec M_Keys S_Keys M_EC S_EC M_Script M_Tx S_Tx M_HD M_Unit M_URI S_Codec S_Script P_Script M_Show S_Show P_Show.
Import ListNotations.
Open Scope Z_scope.

(** *** C99 *)
Theorem C99_string : forall c pre post len a, about_string c = Some (pre, post, len) -> is_string a ->
  exists r n, build c [a] = Ok (txt pre ++ r ++ txt post ++ n) /\ shown a r /\ printable_ascii r /\
    (if len then numeral n (arg_length a) else n = []).
Proof. exact msg_string. Qed.
Print Assumptions C99_string.

Theorem C99_string_written : forall c pre post len b, about_string c = Some (pre, post, len) ->
  exists q t n, chosen q b /\ written q q t b /\ (if len then numeral n (Z.of_nat (List.length b)) else n = []) /\
    build c [A_str (Str b)] = Ok (txt pre ++ (q :: t) ++ txt post ++ n) /\
    build c [A_text b] = Ok (txt pre ++ (txt "u" ++ q :: t) ++ txt post ++ n).
Proof. exact msg_string_bytes. Qed.
Print Assumptions C99_string_written.

Theorem C99_number : forall c pre post z, about_number c = Some (pre, post) ->
  exists n, numeral n z /\ build c [A_num z] = Ok (txt pre ++ n ++ txt post).
Proof. exact msg_number. Qed.
Print Assumptions C99_number.

Theorem C99_object : forall c pre post, about_object c = Some (pre, post) ->
  (forall s, build c [A_obj (Ok s)] = Ok (txt pre ++ s ++ txt post)) /\ (forall e, build c [A_obj (Err e)] = Err e) /\
  (forall o, 1 <= bZ o <= 75 \/ has_name o -> exists s, opcode_text o s /\ build c [A_opcode o] = Ok (txt pre ++ s ++ txt post)) /\
  (forall o, ~ (1 <= bZ o <= 75 \/ has_name o) -> build c [A_opcode o] = Err E_KeyError).
Proof. exact msg_object. Qed.
Print Assumptions C99_object.

Theorem C99_network : forall c pre k z, about_network c = Some pre -> exists n, numeral n z /\
  build c [A_text k; A_num z] = Ok (txt pre ++ k ++ txt "' of value " ++ n).
Proof. exact msg_network. Qed.
Print Assumptions C99_network.

Theorem C99_network_text : forall c pre k v, about_network c = Some pre ->
  build c [A_text k; A_text v] = Ok (txt pre ++ k ++ txt "' of value " ++ v) /\
  (ascii_text v -> build c [A_text k; A_str (Str v)] = Ok (txt pre ++ k ++ txt "' of value " ++ v)).
Proof. exact msg_network_text. Qed.
Print Assumptions C99_network_text.

Theorem C99_network_str : forall c pre k v, about_network c = Some pre -> ~ ascii_text v -> build c [A_text k; A_str (Str v)] = Err E_UnicodeDecodeError.
Proof. exact msg_network_str. Qed.
Print Assumptions C99_network_str.

Theorem C99_network_unshown : forall c pre k v, about_network c = Some pre -> ~ ascii_text v ->
  exists m, build c [A_text k; A_text v] = Ok m /\ exc_str m = None.
Proof. exact msg_network_unshown. Qed.
Print Assumptions C99_network_unshown.

Theorem C99_network_str_refuted : ~ forall c pre k v, about_network c = Some pre -> exists m, build c [A_text k; A_str (Str v)] = Ok m.
Proof. exact msg_network_failed. Qed.
Print Assumptions C99_network_str_refuted.

Theorem C99_network_unshown_refuted : ~ forall c pre k v m, about_network c = Some pre -> build c [A_text k; A_text v] = Ok m -> exc_str m <> None.
Proof. exact msg_network_silent. Qed.
Print Assumptions C99_network_unshown_refuted.

Theorem C99_network_injective_refuted : ~ forall c pre k v w, about_network c = Some pre -> build c [k; v] = build c [k; w] -> v = w.
Proof. exact msg_network_inj_fails. Qed.
Print Assumptions C99_network_injective_refuted.

Theorem C99_fixed : forall c t, fixed_text c = Some t -> build c [] = Ok (txt t).
Proof. exact build_fixed. Qed.
Print Assumptions C99_fixed.

Theorem C99_buffer : forall a b, exists n m, numeral n a /\ numeral m b /\
  build X_InsufficientData [A_num a; A_num b] = Ok (txt "Attempted to read " ++ m ++ txt " bytes, but buffer only has " ++ n).
Proof. exact msg_buffer. Qed.
Print Assumptions C99_buffer.

Theorem C99_count : forall a b, exists n m, numeral n a /\ numeral m b /\
  build X_In_SignatureCount [A_num a; A_num b] = Ok (txt "This Input requires " ++ n ++ txt " keys to sign, but " ++ m ++ txt " were provided").
Proof. exact msg_count. Qed.
Print Assumptions C99_count.

Theorem C99_length : forall o a b, 1 <= bZ o <= 75 \/ has_name o -> exists s n m, opcode_text o s /\ numeral n a /\ numeral m b /\
  build X_Ins_DataLength [A_opcode o; A_num a; A_num b] = Ok (txt "Opcode " ++ s ++ txt " can't push " ++ n ++ txt " bytes (max/exactly " ++ m ++ txt ")").
Proof. exact length_text. Qed.
Print Assumptions C99_length.

Theorem C99_wrong_type : forall o, (exists n, spoken o n /\ build X_Op_WrongType [A_opcode o] = Ok (txt "Opcode " ++ n ++ txt " does not support this operation")) \/
  (~ 1 <= bZ o <= 75 /\ ~ has_name o /\ build X_Op_WrongType [A_opcode o] = Err E_KeyError).
Proof. exact wrong_type_text. Qed.
Print Assumptions C99_wrong_type.

Theorem C99_wrong_type_refuted : ~ forall o, exists m, build X_Op_WrongType [A_opcode o] = Ok m.
Proof. exact msg_opcode_fails. Qed.
Print Assumptions C99_wrong_type_refuted.

Theorem C99_kinds : forall c, undocumented c \/ about_string c <> None \/ about_number c <> None \/ about_network c <> None \/ about_object c <> None \/
  fixed_text c <> None \/ c = X_InsufficientData \/ c = X_In_SignatureCount \/ c = X_Ins_DataLength \/ c = X_Op_WrongType.
Proof. exact msg_kinds. Qed.
Print Assumptions C99_kinds.

Theorem C99_undocumented : forall c l m, undocumented c -> build c l <> Ok m.
Proof. exact build_undocumented. Qed.
Print Assumptions C99_undocumented.

Theorem C99_raised : forall e c, class_of e = Some c -> ~ undocumented c.
Proof. exact class_documented. Qed.
Print Assumptions C99_raised.

Theorem C99_arity : forall c l, List.length l <> arity c -> build c l = Err E_TypeError.
Proof. exact build_arity. Qed.
Print Assumptions C99_arity.

Theorem C99_not_a_string : forall c z, about_string c <> None -> build c [A_num z] = Err E_TypeError.
Proof. exact msg_not_string. Qed.
Print Assumptions C99_not_a_string.

Theorem C99_string_injective : forall c pre post len a b, about_string c = Some (pre, post, len) -> is_string a -> is_string b ->
  build c [a] = build c [b] -> a = b.
Proof. exact build_string_inj. Qed.
Print Assumptions C99_string_injective.

Theorem C99_number_injective : forall c pre post a b, about_number c = Some (pre, post) -> build c [A_num a] = build c [A_num b] -> a = b.
Proof. exact build_number_inj. Qed.
Print Assumptions C99_number_injective.

Theorem C99_shown_string : forall c a m, about_string c <> None -> build c [a] = Ok m -> exc_str m = Some m.
Proof. exact msg_shown_string. Qed.
Print Assumptions C99_shown_string.

Theorem C99_shown : forall c l m, Forall ascii_arg l -> build c l = Ok m -> exc_str m = Some m.
Proof. exact msg_shown. Qed.
Print Assumptions C99_shown.

Theorem C99_subclass : forall c d, subclass c d = true <-> is_a c d.
Proof. exact subclass_is. Qed.
Print Assumptions C99_subclass.

Theorem C99_bitforge : forall c, is_a c X_Bitforge.
Proof. exact all_bitforge. Qed.
Print Assumptions C99_bitforge.

Theorem C99_nested : forall c d, nested_in c = Some d -> is_a c d.
Proof. exact nested_is. Qed.
Print Assumptions C99_nested.

Theorem C99_nested_only : forall c d, In d owners -> is_a c d -> c = d \/ nested_in c = Some d.
Proof. exact owner_only. Qed.
Print Assumptions C99_nested_only.

Theorem C99_except_hex : forall s e, decode_hex s = Err e -> (is_invalid_hex e = true <-> exists c, class_of e = Some c /\ is_a c X_Hex).
Proof. exact hex_except. Qed.
Print Assumptions C99_except_hex.

Theorem C99_except_base58 : forall s e, decode_base58h s = Err e -> (is_invalid_base58h e = true <-> exists c, class_of e = Some c /\ is_a c X_Base58h).
Proof. exact base58_except. Qed.
Print Assumptions C99_except_base58.

Theorem C99_except_network : forall v a e, M_Keys.find v a = Err e -> (is_unknown_network e = true <-> exists c, class_of e = Some c /\ is_a c X_Network).
Proof. exact find_except. Qed.
Print Assumptions C99_except_network.

Theorem C99_except_uri : forall t e, uri_init (AText t) = Err e ->
  (caught e = true <-> (e = E_ValueError \/ e = E_UnicodeDecodeError) \/ exists c, class_of e = Some c /\ is_a c X_Bitforge).
Proof. exact uri_except. Qed.
Print Assumptions C99_except_uri.

Theorem C99_model_wrong_type : forall o, wrong_opcode_type o = match build X_Op_WrongType [A_opcode o] with Ok _ => E_Op_WrongOpcodeType | Err e => e end.
Proof. exact wrong_type_agrees. Qed.
Print Assumptions C99_model_wrong_type.

Theorem C99_model_unexpected_data : forall o, unexpected_data o = match build X_Ins_UnexpectedData [A_opcode o] with Ok _ => E_Ins_UnexpectedData | Err e => e end.
Proof. exact unexpected_agrees. Qed.
Print Assumptions C99_model_unexpected_data.

Theorem C99_model_transaction : forall lg id other o c, c = X_Tx_NotAnInput \/ c = X_Tx_NotAnOutput -> wf_obj o ->
  match build c [A_obj (shown_obj lg id other o)] with Ok _ => True | Err k => k = E_KeyError end /\
  forall e, obj_error o e = match build c [A_obj (shown_obj lg id other o)] with Ok _ => e | Err k => k end.
Proof. exact obj_error_agrees. Qed.
Print Assumptions C99_model_transaction.

Example C99_ex : build X_Hex [A_str (Str (txt "zz"))] = Ok (txt "The string 'zz' is not valid hexadecimal") /\
  build X_Addr_HashLength [A_str (BA [x27; x00])] = Ok (txt "The address hash bytearray(b""\'\x00"") should be 20 bytes long, not 2") /\
  build X_Priv_Secret [A_num (-7)] = Ok (txt "Invalid secret for PrivateKey: -7") /\
  build X_Priv_Network [A_text (txt "name"); A_text (txt "moon")] = Ok (txt "No network for PrivateKey with an attribute 'name' of value moon") /\
  build X_Ins_UnexpectedData [A_opcode x75] = Ok (txt "Instruction got data with opcode <Opcode 117: OP_DROP>, which does not push data") /\
  build X_Op_WrongType [A_opcode x05] = Ok (txt "Opcode _PUSH_5_BYTES does not support this operation") /\
  build X_Op_WrongType [A_opcode xba] = Err E_KeyError /\
  build X_Priv [] = Err E_AttributeError /\ build X_Priv [A_num 1] = Err E_TypeError.
Proof. split; [reflexivity|]. split; [reflexivity|]. split; [reflexivity|]. split; [reflexivity|]. split; [reflexivity|]. split; [reflexivity|]. split; [reflexivity|]. split; reflexivity. Qed.
Example C99_ex_tables : about_string X_Hex <> None /\ about_number X_Priv_Secret <> None /\ about_network X_Priv_Network <> None /\
  about_object X_Ins_UnexpectedData <> None /\ fixed_text X_Tx_NoInputs <> None /\ undocumented X_Priv /\ nested_in X_Priv_Hex = Some X_Priv /\
  subclass X_Priv_Hex X_Hex = true /\ subclass X_Priv_Hex X_String = true /\ subclass X_Priv_Hex X_Addr = false.
Proof.
  split; [discriminate|]. split; [discriminate|]. split; [discriminate|]. split; [discriminate|]. split; [discriminate|].
  split; [unfold undocumented; cbn [In]; tauto|]. split; [reflexivity|]. split; [reflexivity|]. split; reflexivity.
Qed.
Example C99_ex_except : decode_hex (txt "zz") = Err E_InvalidHex /\ decode_base58h (txt "0") = Err E_InvalidBase58h /\
  find (VText (txt "moon")) (txt "name") = Err E_UnknownNetwork /\ ~ ascii_text [xff] /\
  wf_obj (O_Out (Output C_Output 5 (Script None [Instr xba None]))).
Proof.
  split; [reflexivity|]. split; [reflexivity|]. split; [reflexivity|]. split; [intros A; inversion A as [|? ? K _]; discriminate K|].
  apply Forall_cons; [|apply Forall_nil]. unfold well_formed, pushes. cbn [i_data i_op]. change (bZ xba) with 186. intros (_ & K). apply K. reflexivity.
Qed.

(** *** C100 *)
Theorem C100_string_written : forall b, exists q, chosen q b /\
  (exists t, written q q t b /\ repr_str b = q :: t /\ repr_text b = txt "u" ++ q :: t) /\
  (exists t, written x27 q t b /\ repr_ba b = txt "bytearray(b" ++ (q :: t) ++ txt ")").
Proof. exact repr_string_written. Qed.
Print Assumptions C100_string_written.

Theorem C100_string_read : forall b, literal (repr_str b) b /\ printable_ascii (repr_str b) /\
  exists t, literal t b /\ printable_ascii t /\ repr_ba b = txt "bytearray(b" ++ t ++ txt ")".
Proof. exact repr_string_read. Qed.
Print Assumptions C100_string_read.

Theorem C100_string_injective : forall a b, is_string a -> is_string b -> repr_arg a = repr_arg b -> a = b.
Proof. exact repr_string_inj. Qed.
Print Assumptions C100_string_injective.

Theorem C100_opcode : forall o, (1 <= bZ o <= 75 \/ has_name o -> exists t, repr_opcode o = Ok t /\ opcode_text o t) /\
  (~ (1 <= bZ o <= 75 \/ has_name o) -> repr_opcode o = Err E_KeyError).
Proof. exact opcode_shown. Qed.
Print Assumptions C100_opcode.

Theorem C100_opcode_refuted : ~ forall o, exists t, repr_opcode o = Ok t.
Proof. exact opcode_shown_fails. Qed.
Print Assumptions C100_opcode_refuted.

Theorem C100_opcode_injective : forall o o' t, repr_opcode o = Ok t -> repr_opcode o' = Ok t -> o = o'.
Proof. exact repr_opcode_inj. Qed.
Print Assumptions C100_opcode_injective.

Theorem C100_instr : forall i, well_formed i -> printable i -> exists t, repr_instr i = Ok t /\ instr_text i t.
Proof. exact repr_instr_text. Qed.
Print Assumptions C100_instr.

Theorem C100_instr_unnamed : forall i, ~ printable i -> repr_instr i = Err E_KeyError.
Proof. exact repr_instr_unnamed. Qed.
Print Assumptions C100_instr_unnamed.

Theorem C100_instr_injective : forall i j t, well_formed i -> well_formed j -> repr_instr i = Ok t -> repr_instr j = Ok t -> content i = content j.
Proof. exact repr_instr_inj. Qed.
Print Assumptions C100_instr_injective.

Theorem C100_script : forall s, wf_script s ->
  (Forall printable (s_ins s) -> exists t, repr_script s = Ok t /\ script_text s t) /\ (~ Forall printable (s_ins s) -> repr_script s = Err E_KeyError).
Proof. exact script_shown. Qed.
Print Assumptions C100_script.

Theorem C100_script_injective : forall a b t, Forall well_formed (s_ins a) -> Forall well_formed (s_ins b) ->
  repr_script a = Ok t -> repr_script b = Ok t -> same_script a b.
Proof. exact repr_script_inj. Qed.
Print Assumptions C100_script_injective.

Theorem C100_model_script : forall s, Forall well_formed (s_ins s) -> script_repr_fails s = negb (is_ok (repr_script s)).
Proof. exact script_repr_agrees. Qed.
Print Assumptions C100_model_script.

Theorem C100_output : forall lg o, wf_script (out_script o) ->
  (Forall printable (s_ins (out_script o)) -> exists t, repr_output lg o = Ok t /\ output_text lg o t) /\
  (~ Forall printable (s_ins (out_script o)) -> repr_output lg o = Err E_KeyError).
Proof. exact output_shown. Qed.
Print Assumptions C100_output.

Theorem C100_input : forall lg id i, wf_script (in_script i) ->
  (Forall printable (s_ins (in_script i)) -> exists t, repr_input lg id i = Ok t /\ input_text lg id i t) /\
  (~ Forall printable (s_ins (in_script i)) -> repr_input lg id i = Err E_KeyError).
Proof. exact input_shown. Qed.
Print Assumptions C100_input.

Theorem C100_transaction : forall lg id t, wf_tx t ->
  (shown_tx t -> exists s, repr_tx lg id t = Ok s /\ tx_text lg id t s) /\ (~ shown_tx t -> repr_tx lg id t = Err E_KeyError).
Proof. exact tx_shown. Qed.
Print Assumptions C100_transaction.

Theorem C100_privkey : forall k, 0 < k_secret k < curve_order ->
  exists h, hex_number h (k_secret k) /\ repr_privkey k = txt "<PrivateKey: " ++ h ++ txt ", network: " ++ n_name (k_network k) ++ txt ">".
Proof. exact repr_privkey_text. Qed.
Print Assumptions C100_privkey.

Theorem C100_privkey_equal : forall k k', valid_key k -> valid_key k' -> (repr_privkey k = repr_privkey k' <-> k_secret k = k_secret k' /\ k_network k = k_network k').
Proof. exact privkey_shown_known. Qed.
Print Assumptions C100_privkey_equal.

Theorem C100_privkey_hidden_refuted : ~ exists f : network -> bool -> bytes, forall k, valid_key k -> repr_privkey k = f (k_network k) (k_compressed k).
Proof. exact privkey_hidden. Qed.
Print Assumptions C100_privkey_hidden_refuted.

Theorem C100_privkey_compression_refuted : ~ forall k k', valid_key k -> valid_key k' -> repr_privkey k = repr_privkey k' -> k = k'.
Proof. exact privkey_compression_lost. Qed.
Print Assumptions C100_privkey_compression_refuted.

Theorem C100_pubkey : forall k, usable_pub k -> exists h b, repr_pubkey k = Ok (txt "<PublicKey: " ++ h ++ txt ", network: " ++ n_name (pk_network k) ++ txt ">") /\
  hex_text h b /\ sec_of (fst (pk_pair k)) (snd (pk_pair k)) (pk_compressed k) b /\ pk_from_hex h (VNet (pk_network k)) = Ok k.
Proof. exact repr_pubkey_text. Qed.
Print Assumptions C100_pubkey.

Theorem C100_pubkey_injective : forall k k' t, usable_pub k -> usable_pub k' -> known (pk_network k) -> known (pk_network k') ->
  repr_pubkey k = Ok t -> repr_pubkey k' = Ok t -> k = k'.
Proof. exact repr_pubkey_inj. Qed.
Print Assumptions C100_pubkey_injective.

Theorem C100_address : forall a, valid_addr a -> exists s, addr_from_string s = Ok a /\
  repr_address a = Ok (txt "<Address: " ++ s ++ txt ", type: " ++ (match a_type a with T_PublicKey => txt "PublicKey" | T_Script => txt "Script" end) ++ txt ", network: " ++ n_name (a_network a) ++ txt ">").
Proof. exact repr_address_text. Qed.
Print Assumptions C100_address.

Theorem C100_address_injective : forall a b t, valid_addr a -> valid_addr b -> repr_address a = Ok t -> repr_address b = Ok t -> a = b.
Proof. exact repr_address_inj. Qed.
Print Assumptions C100_address_injective.

Theorem C100_unit : forall u, exists n, numeral n (u_satoshis u) /\ unit_str u = n ++ txt " satoshis" /\ repr_unit u = txt "<Unit: " ++ n ++ txt " satoshis>".
Proof. exact unit_text. Qed.
Print Assumptions C100_unit.

Theorem C100_unit_equal : forall u v, (repr_unit u = repr_unit v <-> u_satoshis u = u_satoshis v) /\ (unit_str u = unit_str v <-> u_satoshis u = u_satoshis v).
Proof. exact repr_unit_inj. Qed.
Print Assumptions C100_unit_equal.

Theorem C100_uri : forall u, match to_uri u with Ok t => repr_uri u = Ok (txt "<URI: " ++ t ++ txt ">") | Err e => repr_uri u = Err e end.
Proof. exact repr_uri_text. Qed.
Print Assumptions C100_uri.

Theorem C100_network : forall lg n, network_text lg n (repr_network lg n).
Proof. exact network_shown. Qed.
Print Assumptions C100_network.

Theorem C100_hdpriv : forall lg k, hd_text lg "HDPrivateKey" "privkey" (repr_privkey (hv_privkey k)) (hv_chain k) (hv_depth k) (hv_index k) (hv_parent k) (hv_network k) (hv_fingerprint k) (repr_hdpriv lg k).
Proof. exact hdpriv_shown. Qed.
Print Assumptions C100_hdpriv.

Theorem C100_hdpriv_secret : forall lg k, 0 < k_secret (hv_privkey k) < curve_order -> exists h, hex_number h (k_secret (hv_privkey k)) /\ occurs h (repr_hdpriv lg k).
Proof. exact repr_hdpriv_leaks. Qed.
Print Assumptions C100_hdpriv_secret.

Theorem C100_hdpub : forall lg k, match repr_pubkey (hp_pubkey k) with
  | Ok p => exists t, repr_hdpub lg k = Ok t /\ hd_text lg "HDPublicKey" "pubkey" p (hp_chain k) (hp_depth k) (hp_index k) (hp_parent k) (hp_network k) (hp_fingerprint k) t
  | Err e => repr_hdpub lg k = Err e end.
Proof. exact hdpub_shown. Qed.
Print Assumptions C100_hdpub.

Example C100_ex : repr_script (Script None [Instr x76 None; Instr x02 (Some (Str [xab; x01])); Instr x87 None]) =
    Ok (txt "(<Instruction: OP_DUP>, <Instruction: _PUSH_2_BYTES 'ab01'>, <Instruction: OP_EQUAL>)") /\
  repr_script (Script None [Instr x76 None]) = Ok (txt "(<Instruction: OP_DUP>,)") /\ repr_script (Script None []) = Ok (txt "()") /\
  repr_script (Script None [Instr xba None]) = Err E_KeyError /\
  repr_opcode x76 = Ok (txt "<Opcode 118: OP_DUP>") /\ repr_opcode x05 = Ok (txt "<Opcode PUSH 5 BYTES>") /\
  repr_output (fun z => 1000 <? z) (Output C_Output 5000 (Script None [])) = Ok (txt "Output(amount=5000L, script=())").
Proof. split; [reflexivity|]. split; [reflexivity|]. split; [reflexivity|]. split; [reflexivity|]. split; [reflexivity|]. split; reflexivity. Qed.
Example C100_ex_hypotheses : wf_script (Script None [Instr x76 None; Instr x02 (Some (Str [xab; x01]))]) /\
  Forall printable [Instr x76 None; Instr x02 (Some (Str [xab; x01]))] /\ valid_key (PrivateKey 5 testnet true) /\ valid_addr (Address (Str (repeat x07 20)) livenet T_Script).
Proof.
  split; [|split; [|split]].
  - apply Forall_cons; [|apply Forall_cons; [|apply Forall_nil]]; unfold well_formed, pushes, push_length; cbn [i_data i_op].
    + change (bZ x76) with 118. intros (_ & K). apply K. reflexivity.
    + left. split; [split; discriminate|reflexivity].
  - apply Forall_cons; [right; exists (txt "OP_DUP")|apply Forall_cons; [left; split; discriminate|apply Forall_nil]].
    apply from_name_iff. reflexivity.
  - split; [cbn [k_secret]; unfold curve_order; split; reflexivity|right; reflexivity].
  - split; [left; reflexivity|]. exists (repeat x07 20). split; reflexivity.
Qed.
