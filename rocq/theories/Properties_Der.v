(** C90, C91: how the decoder of DER signatures fails. *)
From Coq Require Import ZArith List.
From Verif Require Import Base M_Keys M_EC M_Sign S_Codec S_Keys S_EC S_Sign S_Der P_SignTx P_Der.
Import ListNotations.
Open Scope Z_scope.

(** *** C90 *)
Theorem C90_decode_errors : forall b e, sigdecode_der b = SErr e <-> no_sig b e.
Proof. exact sigdecode_err. Qed.
Print Assumptions C90_decode_errors.

Example C90_errors_ex : no_sig [] (SX E_IndexError) /\ no_sig [x30; x81] UnexpectedDER /\ no_sig [x30; x80; x00] (SX E_ValueError) /\
  no_sig [x30; x02; x02; x00] (SX E_IndexError) /\ no_sig [x30; x06; x02; x01; x01; x02; x01; x80] (SX E_AssertionError) /\
  no_sig [x30; x07; x02; x01; x01; x02; x01; x01; x01] UnexpectedDER.
Proof. repeat split; apply C90_decode_errors; reflexivity. Qed.

(** *** C91 *)
Theorem C91_malformed : forall k x y sg m e, public_point (k_secret k) x y -> x < curve_order -> y < curve_order -> no_sig sg e -> priv_verify k sg m = SErr e.
Proof. exact verify_malformed. Qed.
Print Assumptions C91_malformed.

Theorem C91_well_formed_or_not : forall b, ((exists r s, lax_sig r s b) \/ (exists e, no_sig b e)) /\ (forall r s e, lax_sig r s b -> no_sig b e -> False).
Proof. exact (fun b => conj (sig_or_not b) (sig_not_both b)). Qed.
Print Assumptions C91_well_formed_or_not.

Example C91_malformed_ex : public_point (k_secret (PrivateKey 1 livenet true)) secp_gx secp_gy /\ secp_gx < curve_order /\ secp_gy < curve_order /\ no_sig [x31] UnexpectedDER.
Proof. split; [exact pp_one|]. split; [reflexivity|]. split; [reflexivity|]. apply ns_sequence, ni_tag. discriminate. Qed.
