(** C29, C35: which error is raised for a length, and for a text that is no script. *)
From Coq Require Import String.
From Coq Require Import ZArith List Lia Strings.Byte.
From Verif Require Import Base M_Keys M_Script S_Codec S_Script S_TextErr P_TextErr.
Import ListNotations.
Open Scope Z_scope.

Theorem C29_var_push_for : forall n o, var_push_for n = Ok o <-> (1 <= n <= 255 /\ bZ o = 76) \/ (256 <= n <= 65535 /\ bZ o = 77) \/ (65536 <= n <= 4294967295 /\ bZ o = 78).
Proof. exact var_push_ok. Qed.
Print Assumptions C29_var_push_for.

Theorem C29_var_push_errors : forall n e, var_push_for n = Err e <-> (n <= 0 \/ 4294967296 <= n) /\ e = E_Op_InvalidPushLength.
Proof. exact var_push_err. Qed.
Print Assumptions C29_var_push_errors.

Theorem C29_const_push_errors : forall n e, const_push_for n = Err e <-> ~ 1 <= n <= 75 /\ e = E_Op_InvalidConstPushLength.
Proof. exact const_push_err. Qed.
Print Assumptions C29_const_push_errors.

Example C29_lengths_ex : var_push_for 0 = Err E_Op_InvalidPushLength /\ var_push_for 7 = Ok x4c /\ var_push_for 65536 = Ok x4e /\ const_push_for 76 = Err E_Op_InvalidConstPushLength.
Proof. repeat split. Qed.

(** the error of the first instruction that cannot be read, or of the classification *)
Theorem C35_errors : forall t e, script_from_string t = Err e <->
  exists ts, ts <> [] /\ Forall no_space ts /\ t = joined ts /\ (bad_text ts e \/ exists l, tokens_of ts (map content l) /\ Forall data_str l /\ classify l = Err e).
Proof. exact from_string_err. Qed.
Print Assumptions C35_errors.

Theorem C35_error_unique : forall ts e e', bad_text ts e -> bad_text ts e' -> e = e'.
Proof. exact bad_unique. Qed.
Print Assumptions C35_error_unique.

Theorem C35_read_or_bad : forall ts, (exists l, tokens_of ts l) \/ (exists e, bad_text ts e).
Proof. exact bad_or_good. Qed.
Print Assumptions C35_read_or_bad.

Example C35_errors_ex :
  script_from_string (txt "OP_DUP OP_NONE") = Err E_Scr_UnknownOpcodeName /\ script_from_string (txt "OP_DUP 99 0x00") = Err E_Op_InvalidConstPushLength /\
  script_from_string (txt "OP_DUP 2") = Err E_Scr_MissingPushArguments /\ script_from_string (txt "2 0x6g61") = Err E_InvalidHex /\ script_from_string (txt "2 6161") = Err E_Scr_InvalidPushData /\
  script_from_string (txt "2 0x61") = Err E_Ins_InvalidDataLength /\ script_from_string (txt "OP_PUSHDATA1 1") = Err E_Scr_MissingPushArguments /\
  script_from_string (txt "OP_PUSHDATA1 -1 0x61") = Err E_Scr_InvalidPushSize /\ script_from_string (txt "OP_PUSHDATA1 1 61") = Err E_Scr_InvalidPushData /\
  script_from_string (txt "OP_PUSHDATA1 1 0x6") = Err E_InvalidHex /\ script_from_string (txt "OP_PUSHDATA1 2 0x61") = Err E_Scr_InvalidPushDataLength /\
  script_from_string (txt "1 0x61 OP_1 OP_1 OP_1") = Err E_AttributeError /\
  bad_text [txt "OP_DUP"; txt "2"] E_Scr_MissingPushArguments.
Proof.
  repeat (split; [reflexivity|]). exists [txt "OP_DUP"], [txt "2"], [(x76, None)]. split; [reflexivity|]. split.
  - constructor; [vm_compute; repeat (first [left; reflexivity | right])|vm_compute; intuition discriminate|constructor].
  - apply (bt_const_end (txt "2") 2); [exact (dec_one x32 ltac:(vm_compute; split; discriminate))|lia].
Qed.
