(** Property theorems C28-C36, C67-C69 and C71: opcodes, instructions, scripts. *)
From Coq Require Import String.
From Verif Require Import Base M_Hash M_Codec S_Codec P_Codec M_Keys S_Keys P_Keys M_EC M_Script S_Script P_Script.
Open Scope Z_scope.

(** *** C28 *)
Theorem C28_constructs : forall n o, new_opcode n = Ok o <-> 0 <= n <= 255 /\ bZ o = n.
Proof. exact new_opcode_ok. Qed.
Print Assumptions C28_constructs.

Theorem C28_constructor_rejects : forall n, ~ 0 <= n <= 255 -> new_opcode n = Err E_Op_UnknownOpcodeNumber.
Proof. exact new_opcode_err. Qed.
Print Assumptions C28_constructor_rejects.

Theorem C28_from_name : forall name o, op_from_name name = Ok o <-> names_op name o.
Proof. exact from_name_iff. Qed.
Print Assumptions C28_from_name.

Theorem C28_from_name_rejects : forall name e, op_from_name name = Err e -> e = E_Op_UnknownOpcodeName.
Proof. exact from_name_err. Qed.
Print Assumptions C28_from_name_rejects.

Theorem C28_name_roundtrip : forall o, has_name o -> exists n, op_name o = Ok n /\ op_from_name n = Ok o.
Proof. exact op_name_roundtrip. Qed.
Print Assumptions C28_name_roundtrip.

Theorem C28_named_numbers : forall o, has_name o <->
  bZ o = 0 \/ 76 <= bZ o <= 97 \/ 99 <= bZ o <= 100 \/ 103 <= bZ o <= 185 \/ 253 <= bZ o.
Proof. exact has_name_iff. Qed.
Print Assumptions C28_named_numbers.

Theorem C28_unnamed : forall o, ~ 1 <= bZ o <= 75 -> ~ has_name o -> op_name o = Err E_KeyError.
Proof. exact op_name_unnamed. Qed.
Print Assumptions C28_unnamed.

Theorem C28_for_number : forall n o, for_number n = Ok o <-> small_number o n.
Proof. exact for_number_ok. Qed.
Print Assumptions C28_for_number.

Theorem C28_number_value : forall o n, number_value o = Ok n <-> small_number o n.
Proof. exact number_value_ok. Qed.
Print Assumptions C28_number_value.

Theorem C28_for_number_rejects : forall n, ~ 0 <= n <= 16 -> for_number n = Err E_ValueError.
Proof. exact for_number_err. Qed.
Print Assumptions C28_for_number_rejects.

Theorem C28_order : forall a b, (op_leb a b = true <-> bZ a <= bZ b) /\ (op_eqb a b = true <-> bZ a = bZ b).
Proof. exact op_order. Qed.
Print Assumptions C28_order.

Theorem C28_push_names : forall o, 1 <= bZ o <= 75 ->
  exists t, decimal t (bZ o) /\ op_name o = Ok (txt "_PUSH_" ++ t ++ txt "_BYTES").
Proof. exact push_name_decimal. Qed.
Print Assumptions C28_push_names.

Example C28_ex : op_from_name (txt "OP_CHECKSIG") = Ok xac /\ op_name xac = Ok (txt "OP_CHECKSIG")
  /\ op_from_name (txt "OP_TRUE") = Ok x51 /\ op_name x51 = Ok (txt "OP_1") /\ has_name xac
  /\ for_number 16 = Ok x60 /\ number_value x60 = Ok 16 /\ op_name x65 = Err E_KeyError.
Proof. repeat split. apply has_name_iff. vm_compute. right. right. right. left. split; discriminate. Qed.

(** *** C29 *)
Theorem C29_push_for : forall n o, op_push_for n = Ok o <->
  (1 <= n <= 75 /\ bZ o = n) \/ (76 <= n <= 255 /\ bZ o = 76) \/
  (256 <= n <= 65535 /\ bZ o = 77) \/ (65536 <= n <= 4294967295 /\ bZ o = 78).
Proof. exact op_push_for_ok. Qed.
Print Assumptions C29_push_for.

Theorem C29_push_for_errors : forall n e, op_push_for n = Err e <->
  (n <= 0 /\ e = E_Op_InvalidConstPushLength) \/ (4294967296 <= n /\ e = E_Op_InvalidPushLength).
Proof. exact op_push_for_err. Qed.
Print Assumptions C29_push_for_errors.

Theorem C29_shortest_wire_form : forall d o o' w w', op_push_for (blen d) = Ok o ->
  wire (o, Some d) w -> wire (o', Some d) w' -> (List.length w <= List.length w')%nat.
Proof. exact push_for_shortest. Qed.
Print Assumptions C29_shortest_wire_form.

Example C29_ex : op_push_for 75 = Ok x4b /\ op_push_for 76 = Ok x4c /\ op_push_for 256 = Ok x4d
  /\ wire (x4c, Some [x00]) [x4c; x01; x00] /\ wire (x01, Some [x00]) [x01; x00].
Proof.
  repeat split.
  - apply (wire_var x4c 1 [x01] [x00]); [left; split|..]; reflexivity.
  - apply (wire_const x01 [x00]); [vm_compute; split; discriminate | reflexivity].
Qed.

(** *** C30 *)
Theorem C30_constructor : forall o d i, new_instr o d = Ok i <-> i = Instr o d /\ well_formed i.
Proof. exact new_instr_ok. Qed.
Print Assumptions C30_constructor.

Theorem C30_constructor_errors : forall o d e, new_instr o d = Err e ->
  (pushes o /\ d = None /\ e = E_TypeError) \/
  (pushes o /\ d <> None /\ e = E_Ins_InvalidDataLength) \/
  (~ pushes o /\ d <> None /\ (e = E_Ins_UnexpectedData /\ has_name o \/ e = E_KeyError /\ ~ has_name o)).
Proof. exact new_instr_err. Qed.
Print Assumptions C30_constructor_errors.

Example C30_ex : new_instr x02 (Some (Str [x61; x62])) = Ok (Instr x02 (Some (Str [x61; x62])))
  /\ new_instr x02 (Some (Str [x61])) = Err E_Ins_InvalidDataLength
  /\ new_instr x4c (Some (Str [])) = Ok (Instr x4c (Some (Str [])))
  /\ new_instr x76 None = Ok (Instr x76 None) /\ new_instr x76 (Some (Str [])) = Err E_Ins_UnexpectedData
  /\ new_instr xc8 (Some (Str [])) = Err E_KeyError.
Proof. repeat split. Qed.

(** *** C31 *)
Theorem C31_roundtrip : forall l c, Forall well_formed l -> Forall (fun i => ~ pushdata (i_op i)) l -> classify l = Ok c ->
  exists b s, script_to_bytes (Script c l) = Ok b /\ script_from_bytes b = Ok s /\ s_class s = c /\ same_script s (Script c l).
Proof. exact script_bytes_roundtrip. Qed.
Print Assumptions C31_roundtrip.

Theorem C31_bytes_are_the_wire_form : forall l b, Forall well_formed l -> ins_list_to_bytes l = Ok b ->
  Forall (fun i => ~ pushdata (i_op i)) l /\ wire_script (map content l) b.
Proof. exact to_bytes_inv. Qed.
Print Assumptions C31_bytes_are_the_wire_form.

Theorem C31_parse_then_print : forall b s b', script_from_bytes b = Ok s -> script_to_bytes s = Ok b' -> b' = b.
Proof. exact script_bytes_canonical. Qed.
Print Assumptions C31_parse_then_print.

(** A script with any PUSHDATA instruction cannot be serialised. *)
Theorem C31_pushdata_refuted : forall l, Forall well_formed l -> Exists (fun i => pushdata (i_op i)) l ->
  ins_list_to_bytes l = Err E_TypeError.
Proof. exact to_bytes_pushdata. Qed.
Print Assumptions C31_pushdata_refuted.

Theorem C31_hex : forall s h, script_to_hex s = Ok h <->
  exists b, script_to_bytes s = Ok b /\ hex_text h b /\ map lower h = h.
Proof. exact script_hex. Qed.
Print Assumptions C31_hex.

Theorem C31_hash : forall s h, script_to_hash s = Ok h <->
  exists b, script_to_bytes s = Ok b /\ h = ripemd160 (sha256 b).
Proof. exact script_hash. Qed.
Print Assumptions C31_hash.

Example C31_ex_hex : script_to_hex (Script None [Instr x02 (Some (Str [x61; xab]))]) = Ok (txt "0261ab").
Proof. reflexivity. Qed.

Example C31_ex : let l := [Instr x76 None; Instr xa9 None; Instr x02 (Some (Str [x61; x62])); Instr x88 None; Instr xac None] in
  classify l = Ok (Some PayToPubkeyOut) /\ ins_list_to_bytes l = Ok [x76; xa9; x02; x61; x62; x88; xac]
  /\ script_from_bytes [x4c; x01; x61] = Ok (Script None [Instr x4c (Some (BA [x61]))])
  /\ script_to_bytes (Script None [Instr x4c (Some (BA [x61]))]) = Err E_TypeError.
Proof. repeat split. Qed.

(** *** C32 *)
Theorem C32_grammar : forall b l, script_parse b = Ok l <-> wire_script (map content l) b /\ Forall data_ba l.
Proof. exact script_parse_ok. Qed.
Print Assumptions C32_grammar.

Theorem C32_from_bytes : forall b s, script_from_bytes b = Ok s <->
  wire_script (map content (s_ins s)) b /\ Forall data_ba (s_ins s) /\ classify (s_ins s) = Ok (s_class s).
Proof. exact script_from_bytes_ok. Qed.
Print Assumptions C32_from_bytes.

Theorem C32_truncated : forall b, (forall c, ~ wire_script c b) ->
  exists r n, script_parse b = Err (E_InsufficientData r n) /\ 0 <= r < n.
Proof. exact script_parse_truncated. Qed.
Print Assumptions C32_truncated.

Theorem C32_errors : forall b e, script_from_bytes b = Err e <->
  (exists r n, e = E_InsufficientData r n /\ script_parse b = Err e) \/
  (e = E_AttributeError /\ exists l, Forall data_ba l /\ wire_script (map content l) b /\ breaks_classify l).
Proof. exact script_from_bytes_err. Qed.
Print Assumptions C32_errors.

Theorem C32_unambiguous : forall c c' b, wire_script c b -> wire_script c' b -> c = c'.
Proof. exact wire_script_fun. Qed.
Print Assumptions C32_unambiguous.

Theorem C32_every_script_has_bytes : forall l, Forall well_formed l -> exists w, wire_script (map content l) w.
Proof. exact script_total_bytes. Qed.
Print Assumptions C32_every_script_has_bytes.

Example C32_ex : script_parse [x4d; x02; x00; x61; x62; xac] = Ok [Instr x4d (Some (BA [x61; x62])); Instr xac None]
  /\ script_parse [xac; x05; x61] = Err (E_InsufficientData 1 5)
  /\ script_parse [x4d; x02] = Err (E_InsufficientData 1 2).
Proof. repeat split. Qed.

(** *** C33 *)
Theorem C33_classify : forall l c, classify l = Ok (Some c) <-> shape c l.
Proof. exact classify_some. Qed.
Print Assumptions C33_classify.

Theorem C33_unclassified : forall l, classify l = Ok None <-> ~ (exists c, shape c l) /\ ~ breaks_classify l.
Proof. exact classify_none. Qed.
Print Assumptions C33_unclassified.

Theorem C33_is_valid : forall c l, is_valid c (structure l) = Ok true <-> shape c l.
Proof. exact is_valid_iff. Qed.
Print Assumptions C33_is_valid.

Theorem C33_exclusive : forall c c' l, shape c l -> shape c' l -> c = c'.
Proof. exact shape_unique. Qed.
Print Assumptions C33_exclusive.

(** Two templates can create scripts that are not recognised as such. *)
Theorem C33_no_signatures_refuted : forall r s, p2sh_in_create r [] = Ok s -> classify (s_ins s) = Ok None.
Proof. exact p2sh_in_no_sigs. Qed.
Print Assumptions C33_no_signatures_refuted.

Theorem C33_no_keys_refuted : forall m s, multisig_create [] m = Ok s -> classify (s_ins s) = Ok None.
Proof. exact multisig_no_keys. Qed.
Print Assumptions C33_no_keys_refuted.

Example C33_ex : classify [Instr x52 None; Instr x01 (Some (Str [x61])); Instr x01 (Some (Str [x62])); Instr x52 None; Instr xae None]
    = Ok (Some RedeemMultisig)
  /\ classify [Instr x00 None; Instr x01 (Some (Str [x61])); Instr x01 (Some (Str [x62])); Instr x01 (Some (Str [x62]))] = Ok (Some PayToScriptIn)
  /\ classify [Instr x76 None] = Ok None
  /\ (exists s, multisig_create [] 1 = Ok s)
  /\ (exists s, p2sh_in_create (Script None [Instr x51 None]) [] = Ok s).
Proof. split; [reflexivity|]. split; [reflexivity|]. split; [reflexivity|]. split; eexists; reflexivity. Qed.

(** *** C34 *)
Theorem C34_classify_fails_exactly : forall l e, classify l = Err e <-> e = E_AttributeError /\ breaks_classify l.
Proof. exact classify_err. Qed.
Print Assumptions C34_classify_fails_exactly.

(** Parsing is not total: some grammatical byte strings raise. *)
Theorem C34_totality_refuted : exists b c, wire_script c b /\ script_from_bytes b = Err E_AttributeError.
Proof. exact classify_not_total. Qed.
Print Assumptions C34_totality_refuted.

Example C34_ex : script_from_bytes [x01; x61; x51; x51; x51] = Err E_AttributeError
  /\ script_from_bytes [x51; x51; x01; x61; xac] = Err E_AttributeError
  /\ script_from_bytes [x51; x51; x51; xac] = Ok (Script None [Instr x51 None; Instr x51 None; Instr x51 None; Instr xac None]).
Proof. repeat split. Qed.

(** *** C35 *)
Theorem C35_roundtrip : forall l c, l <> [] -> Forall well_formed l -> Forall printable l -> classify l = Ok c ->
  exists t s, script_to_string (Script c l) = Ok t /\ script_from_string t = Ok s /\ s_class s = c /\ same_script s (Script c l).
Proof. exact script_text_roundtrip. Qed.
Print Assumptions C35_roundtrip.

Theorem C35_text_grammar : forall t s, script_from_string t = Ok s <->
  (exists ts, ts <> [] /\ Forall no_space ts /\ t = joined ts /\ tokens_of ts (map content (s_ins s))) /\
  Forall data_str (s_ins s) /\ classify (s_ins s) = Ok (s_class s).
Proof. exact from_string_ok. Qed.
Print Assumptions C35_text_grammar.

Theorem C35_printed_tokens : forall l, l <> [] -> Forall well_formed l -> Forall printable l ->
  exists ts, ins_list_to_string l = Ok (joined ts) /\ ts <> [] /\ Forall no_space ts /\ tokens_of ts (map content l).
Proof. exact to_string_tokens. Qed.
Print Assumptions C35_printed_tokens.

Theorem C35_unnamed_refuted : forall l, Forall well_formed l -> Exists (fun i => ~ printable i) l -> ins_list_to_string l = Err E_KeyError.
Proof. exact to_string_unnamed. Qed.
Print Assumptions C35_unnamed_refuted.

(** The empty script prints as the empty text, which cannot be read back. *)
Theorem C35_empty_refuted : script_to_string (Script None []) = Ok [] /\ script_from_string [] = Err E_Scr_UnknownOpcodeName.
Proof. exact empty_text. Qed.
Print Assumptions C35_empty_refuted.

Example C35_ex : script_from_string (txt "OP_DUP 2 0x6162 OP_PUSHDATA1 01 0xFf") =
    Ok (Script None [Instr x76 None; Instr x02 (Some (Str [x61; x62])); Instr x4c (Some (Str [xff]))])
  /\ script_to_string (Script None [Instr x76 None; Instr x02 (Some (Str [x61; x62])); Instr x4c (Some (Str [xff]))])
     = Ok (txt "OP_DUP 2 0x6162 OP_PUSHDATA1 1 0xff")
  /\ script_from_string (txt "2") = Err E_Scr_MissingPushArguments
  /\ script_from_string (txt "76 0x61") = Err E_Op_InvalidConstPushLength.
Proof. repeat split. Qed.

(** *** C36 *)
Theorem C36_pay_to_pubkey_in : forall k sig s, p2pk_in_create k sig = Ok s ->
  exists kb, pk_to_bytes k = Ok kb /\ shape PayToPubkeyIn (s_ins s) /\ s_class s = Some PayToPubkeyIn /\
    get_signature s = Ok (Some sig) /\ get_public_key s = pk_from_bytes (Str kb) (VNet livenet).
Proof. exact p2pk_in_ok. Qed.
Print Assumptions C36_pay_to_pubkey_in.

Theorem C36_pay_to_pubkey_out : forall a s, p2pk_out_create a = Ok s ->
  shape PayToPubkeyOut (s_ins s) /\ s_class s = Some PayToPubkeyOut /\ get_address_hash s = Ok (Some (a_phash a)).
Proof. exact p2pk_out_ok. Qed.
Print Assumptions C36_pay_to_pubkey_out.

Theorem C36_pay_to_pubkey_out_total : forall a, valid_addr a -> exists s, p2pk_out_create a = Ok s.
Proof. exact p2pk_out_total. Qed.
Print Assumptions C36_pay_to_pubkey_out_total.

Theorem C36_pay_to_script_in : forall r sigs s, p2sh_in_create r sigs = Ok s -> sigs <> [] ->
  exists rb, script_to_bytes r = Ok rb /\ shape PayToScriptIn (s_ins s) /\ s_class s = Some PayToScriptIn /\
    get_signatures s = map Some sigs /\ get_script s = script_from_bytes rb.
Proof. exact p2sh_in_ok. Qed.
Print Assumptions C36_pay_to_script_in.

Theorem C36_pay_to_script_in_script : forall r sigs s, p2sh_in_create r sigs = Ok s ->
  Forall well_formed (s_ins r) -> classify (s_ins r) = Ok (s_class r) ->
  exists r', get_script s = Ok r' /\ s_class r' = s_class r /\ same_script r' r.
Proof. exact p2sh_in_get_script. Qed.
Print Assumptions C36_pay_to_script_in_script.

Theorem C36_pay_to_script_out : forall r s, p2sh_out_create r = Ok s ->
  exists rb, script_to_bytes r = Ok rb /\ shape PayToScriptOut (s_ins s) /\ s_class s = Some PayToScriptOut /\
    get_script_hash s = Ok (Some (Str (ripemd160 (sha256 rb)))).
Proof. exact p2sh_out_ok. Qed.
Print Assumptions C36_pay_to_script_out.

Theorem C36_op_return : forall d s, op_return_create d = Ok s ->
  shape OpReturnOut (s_ins s) /\ s_class s = Some OpReturnOut /\ get_data s = Ok (Some d).
Proof. exact op_return_ok. Qed.
Print Assumptions C36_op_return.

Theorem C36_op_return_total : forall b, 1 <= blen b <= 4294967295 <-> exists s, op_return_create (Str b) = Ok s.
Proof. exact op_return_total. Qed.
Print Assumptions C36_op_return_total.

Theorem C36_redeem_multisig : forall ks m s, multisig_create ks m = Ok s ->
  exists bs, Forall2 (fun k b => pk_to_bytes k = Ok b) ks bs /\ s_class s = Some RedeemMultisig /\
    0 <= m <= 16 /\ blen ks <= 16 /\ get_min_signatures s = Ok m /\
    (ks <> [] -> shape RedeemMultisig (s_ins s)) /\
    (forall ks', get_public_keys s = Ok ks' <-> Forall2 (fun b k => pk_from_bytes (Str b) (VNet livenet) = Ok k) bs ks').
Proof. exact multisig_ok. Qed.
Print Assumptions C36_redeem_multisig.

(** On scripts read from bytes the public-key getters never work. *)
Theorem C36_parsed_public_key_refuted : forall b s, script_from_bytes b = Ok s -> s_class s = Some PayToPubkeyIn ->
  get_public_key s = Err E_Pub_InvalidBinary.
Proof. exact parsed_public_key. Qed.
Print Assumptions C36_parsed_public_key_refuted.

Theorem C36_parsed_public_keys_refuted : forall b s, script_from_bytes b = Ok s -> s_class s = Some RedeemMultisig ->
  get_public_keys s = Err E_Pub_InvalidBinary.
Proof. exact parsed_public_keys. Qed.
Print Assumptions C36_parsed_public_keys_refuted.

Example C36_ex : exists s, op_return_create (Str [x61]) = Ok s /\ get_data s = Ok (Some (Str [x61])).
Proof. eexists. split; reflexivity. Qed.
Example C36_ex_p2sh : exists s, p2sh_in_create (Script None [Instr x51 None; Instr x51 None]) [Str [x61]; Str [x62]] = Ok s
  /\ get_signatures s = [Some (Str [x61]); Some (Str [x62])] /\ get_script s = Ok (Script None [Instr x51 None; Instr x51 None]).
Proof. eexists. repeat split. Qed.
Example C36_ex_keys : exists s, multisig_create [PublicKey (5, 6) livenet true; PublicKey (7, 9) testnet false] 2 = Ok s
  /\ get_min_signatures s = Ok 2.
Proof. eexists. split; vm_compute; reflexivity. Qed.
Example C36_ex_in : exists s, p2pk_in_create (PublicKey (5, 6) livenet true) (Str [x61]) = Ok s
  /\ get_signature s = Ok (Some (Str [x61])).
Proof. eexists. split; vm_compute; reflexivity. Qed.
Example C36_ex_parsed : exists s, script_from_bytes [x01; x61; x01; x62] = Ok s /\ s_class s = Some PayToPubkeyIn.
Proof. eexists. split; reflexivity. Qed.
Example C36_ex_parsed_multi : exists s, script_from_bytes [x51; x01; x62; x51; xae] = Ok s /\ s_class s = Some RedeemMultisig.
Proof. eexists. split; reflexivity. Qed.

(** *** C67 *)
Theorem C67_mutators_never_succeed : forall s b, exists e,
  script_push_data s b = Err e /\ script_remove_opcode_by_data s b = Err e.
Proof. exact push_data_never. Qed.
Print Assumptions C67_mutators_never_succeed.

Example C67_ex : script_push_data (Script None []) (Str [x61]) = Err E_AttributeError
  /\ script_push_data (Script None []) (Str []) = Err E_Op_InvalidConstPushLength.
Proof. split; reflexivity. Qed.

(** *** C68 *)
Theorem C68_push_only : forall l, is_push_only l = true <-> Forall (fun i => bZ (i_op i) <= 96) l.
Proof. exact push_only_iff. Qed.
Print Assumptions C68_push_only.

Example C68_ex : is_push_only [Instr x00 None; Instr x60 None; Instr x50 None] = true /\ is_push_only [Instr x61 None] = false.
Proof. split; reflexivity. Qed.

(** *** C69 *)
Theorem C69_parsed_push_refuted : forall o d, well_formed (Instr o (Some (BA d))) -> 1 <= blen d <= 75 ->
  is_minimal_push (Instr o (Some (BA d))) = Err E_AttributeError.
Proof. exact minimal_push_raises. Qed.
Print Assumptions C69_parsed_push_refuted.

Theorem C69_built_push : forall o d, well_formed (Instr o (Some (Str d))) ->
  is_minimal_push (Instr o (Some (Str d))) =
    if blen d =? 0 then Ok true
    else if (blen d =? 1) && ((1 <=? be_val d) && (be_val d <=? 16) || (be_val d =? 129)) then Ok false
    else if blen d <=? 75 then Err E_AttributeError
    else if blen d <=? 255 then Ok (bZ o =? 76) else if blen d <=? 65535 then Ok (bZ o =? 77) else Ok true.
Proof. exact minimal_push_str. Qed.
Print Assumptions C69_built_push.

Example C69_ex : is_minimal_push (Instr x01 (Some (Str [x05]))) = Ok false
  /\ is_minimal_push (Instr x01 (Some (BA [x05]))) = Err E_AttributeError
  /\ well_formed (Instr x01 (Some (BA [x05]))).
Proof. repeat split. left. vm_compute. intuition discriminate. Qed.

(** *** C71 *)
Theorem C71_address : forall s n b, known n -> script_to_bytes s = Ok b ->
  addr_from_script s (VNet n) = Ok (Address (Str (ripemd160 (sha256 b))) n T_Script).
Proof. exact from_script_address. Qed.
Print Assumptions C71_address.

Theorem C71_text : forall s n b, known n -> script_to_bytes s = Ok b ->
  exists a t, addr_from_script s (VNet n) = Ok a /\ addr_to_string a = Ok t /\ addr_from_string t = Ok a.
Proof. exact from_script_text. Qed.
Print Assumptions C71_text.

Theorem C71_pays_the_script : forall s n a, known n -> addr_from_script s (VNet n) = Ok a ->
  exists o, p2sh_out_create s = Ok o /\ get_script_hash o = Ok (Some (a_phash a)).
Proof. exact from_script_pays. Qed.
Print Assumptions C71_pays_the_script.

Example C71_ex : exists a, addr_from_script (Script None [Instr x51 None]) (VNet testnet) = Ok a
  /\ addr_to_string a = Ok (txt "2ND8PB9RrfCaAcjfjP1Y6nAgFd9zWHYX4DN").
Proof. eexists. split; [vm_compute; reflexivity|]. vm_compute. reflexivity. Qed.
