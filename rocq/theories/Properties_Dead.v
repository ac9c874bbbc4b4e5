(** Scripts that can never be spent: C112. *)
From Verif Require Import Base M_Keys M_EC M_Script S_Script M_Interp S_Interp M_Tx S_Dead P_Dead.
Open Scope Z_scope.

(** *** C112 *)
Theorem C112_dead : forall o, dead (bZ o) <-> forall st d st', executing st -> step st (Instr o d) <> Ok (Next st').
Proof. exact dead_iff. Qed.
Print Assumptions C112_dead.

Theorem C112_dead_anywhere : forall o, dead_anywhere (bZ o) <-> forall st d st', step st (Instr o d) <> Ok (Next st').
Proof. exact dead_anywhere_iff. Qed.
Print Assumptions C112_dead_anywhere.

Theorem C112_block : forall l st st', block (ops l) -> run l st = Ok (Next st') -> s_vf st' = s_vf st.
Proof. exact run_block. Qed.
Print Assumptions C112_block.

Theorem C112_doomed : forall self a b f e, doomed (s_ins a) \/ doomed (s_ins b) -> verify self a b f <> Ok (true, e).
Proof. exact verify_doomed. Qed.
Print Assumptions C112_doomed.

Example C112_doomed_ex : doomed [Instr x76 None; Instr x63 None; Instr x51 None; Instr x6a None; Instr x67 None; Instr xac None; Instr x68 None; Instr x51 None].
Proof. exact ex_doomed. Qed.

(** A dead opcode somewhere in the script does not make it unspendable. *)
Theorem C112_somewhere_refuted : ~ (forall self a b f e, Exists (fun i => dead (bZ (i_op i))) (s_ins b) -> verify self a b f <> Ok (true, e)).
Proof. exact dead_somewhere. Qed.
Print Assumptions C112_somewhere_refuted.

Theorem C112_broken : forall self a b f e, broken a \/ broken b -> verify self a b f <> Ok (true, e).
Proof. exact verify_broken. Qed.
Print Assumptions C112_broken.

Example C112_broken_ex : broken (Script None [Instr x00 None; Instr x63 None; Instr x65 None; Instr x68 None; Instr x51 None]) /\
  broken (Script None (repeat (Instr x61 None) 202)) /\ broken (Script None [Instr x51 None; Instr x63 None; Instr x51 None]).
Proof. exact ex_broken. Qed.

Theorem C112_own_outputs : forall self a s f e,
  (exists h, p2pk_out_create h = Ok s) \/ (exists r, p2sh_out_create r = Ok s) \/ (exists d, op_return_create d = Ok s) \/
  (exists ks m, multisig_create ks m = Ok s /\ m <> 0) -> verify self a s f <> Ok (true, e).
Proof. exact verify_own. Qed.
Print Assumptions C112_own_outputs.

Theorem C112_multisig : forall ks m s, multisig_create ks m = Ok s -> (exists self a f e, verify self a s f = Ok (true, e)) <-> m = 0.
Proof. exact multisig_spendable. Qed.
Print Assumptions C112_multisig.

Theorem C112_multisig_open : forall ks s self, multisig_create ks 0 = Ok s -> verify self (Script None [Instr x00 None]) s 0 = Ok (true, IE_None).
Proof. exact multisig_open. Qed.
Print Assumptions C112_multisig_open.

Example C112_multisig_ex : exists s s', multisig_create [] 0 = Ok s /\ multisig_create [] 2 = Ok s'.
Proof. eexists. eexists. split; reflexivity. Qed.
