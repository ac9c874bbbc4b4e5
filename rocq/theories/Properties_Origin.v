(** C118 *)
From Coq Require Import ZArith Lia List.
From Coq.Init Require Import Byte.
From Verif Require Import Base M_Hash M_Codec M_Script S_Script M_Interp S_Interp P_Interp S_Origin P_Origin.
Import ListNotations.
Open Scope Z_scope.

Theorem C118_items : forall st st1 l1 b, reaches st st1 l1 -> s_nop st = 0 -> items st <= 1000 -> small_items st -> holds_item st1 b ->
  made (fun c => holds_item st c \/ pushed l1 c) b.
Proof. exact origin. Qed.
Print Assumptions C118_items.

Theorem C118_spending : forall a fl st1 b, evaluate (ready a [] fl) = Ok (Next st1) -> holds_item st1 b -> made (pushed (s_ins a)) b.
Proof. exact evaluated_made. Qed.
Print Assumptions C118_spending.

Theorem C118_push_only : forall a fl st1 b, Forall (fun i => bZ (i_op i) <= 96) (s_ins a) -> evaluate (ready a [] fl) = Ok (Next st1) -> holds_item st1 b ->
  pushed (s_ins a) b \/ blen b <= 4.
Proof. exact evaluated_pushed. Qed.
Print Assumptions C118_push_only.

Theorem C118_hash_lock : forall self a b fl er z f o i2 h e rest, s_ins b = o :: i2 :: e :: rest -> hash_op z f -> plain z o -> pushes_data i2 h -> compares e rest ->
  verify self a b fl = Ok (true, er) -> exists x, f x = pyb_bytes h /\ made (pushed (s_ins a)) x.
Proof. exact hash_lock. Qed.
Print Assumptions C118_hash_lock.

Theorem C118_hash_lock_reveals : forall self a b fl er z f o i2 h e rest, s_ins b = o :: i2 :: e :: rest -> hash_op z f -> plain z o -> pushes_data i2 h -> compares e rest ->
  verify self a b fl = Ok (true, er) -> exists x, f x = pyb_bytes h /\ (pushed (s_ins a) x \/ blen x <= 4 \/ blen x = 20 \/ blen x = 32).
Proof. exact hash_lock_reveals. Qed.
Print Assumptions C118_hash_lock_reveals.

Theorem C118_hash_lock_push_only : forall self a b fl er z f o i2 h e rest, s_ins b = o :: i2 :: e :: rest -> hash_op z f -> plain z o -> pushes_data i2 h -> compares e rest ->
  Forall (fun i => bZ (i_op i) <= 96) (s_ins a) -> verify self a b fl = Ok (true, er) -> exists x, f x = pyb_bytes h /\ (pushed (s_ins a) x \/ blen x <= 4).
Proof. exact hash_lock_push_only. Qed.
Print Assumptions C118_hash_lock_push_only.

Theorem C118_hash_lock_iff : forall self a cls fl z f o i2 h e, hash_op z f -> plain z o -> pushes_data i2 h -> plain 135 e ->
  (verify self a (Script cls [o; i2; e]) fl = Ok (true, IE_None) <->
   ~ flag fl P2SH /\ ~ flag fl MINIMALDATA /\ (flag fl SIGPUSHONLY -> Forall (fun i => bZ (i_op i) <= 96) (s_ins a)) /\
   exists st1 s x, evaluate (ready a [] fl) = Ok (Next st1) /\ s_stack st1 = s ++ [x] /\ f (pyb_bytes x) = pyb_bytes h).
Proof. exact hash_lock_iff. Qed.
Print Assumptions C118_hash_lock_iff.

Theorem C118_literal_lock : forall self a b fl er i2 h e rest, s_ins b = i2 :: e :: rest -> pushes_data i2 h -> compares e rest ->
  verify self a b fl = Ok (true, er) -> made (pushed (s_ins a)) (pyb_bytes h).
Proof. exact literal_lock. Qed.
Print Assumptions C118_literal_lock.

Theorem C118_literal_lock_reveals : forall self a b fl er i2 h e rest, s_ins b = i2 :: e :: rest -> pushes_data i2 h -> compares e rest ->
  verify self a b fl = Ok (true, er) -> pushed (s_ins a) (pyb_bytes h) \/ pyb_len h <= 4 \/ pyb_len h = 20 \/ pyb_len h = 32.
Proof. exact literal_lock_reveals. Qed.
Print Assumptions C118_literal_lock_reveals.

(** a spending script of several instructions and a lock that goes on after the comparison *)
Definition ex_secret : bytes := [x73; x65; x63; x72; x65; x74].
Definition ex_i1 : instr := Instr x06 (Some (BA ex_secret)).
Definition ex_lock_digest : bytes := sha1 ex_secret.
Definition ex_i2 : instr := Instr x14 (Some (BA ex_lock_digest)).
Definition ex_spend : script := Script None [ex_i1; Instr x53 None; Instr x7c None].
Definition ex_lock : script := Script None [Instr xa7 None; ex_i2; Instr x88 None; Instr x53 None; Instr x87 None].
Example C118_ex : s_ins ex_lock = Instr xa7 None :: ex_i2 :: Instr x88 None :: [Instr x53 None; Instr x87 None] /\ hash_op 167 sha1 /\ plain 167 (Instr xa7 None)
  /\ pushes_data ex_i2 (BA ex_lock_digest) /\ compares (Instr x88 None) [Instr x53 None; Instr x87 None]
  /\ verify (ready (Script None []) [] 0) ex_spend ex_lock 0 = Ok (true, IE_None) /\ pushed (s_ins ex_spend) ex_secret
  /\ exists st1, evaluate (ready ex_spend [] 0) = Ok (Next st1) /\ holds_item st1 ex_secret /\ holds_item st1 [x03] /\ reaches (ready ex_spend [] 0) st1 (s_ins ex_spend).
Proof.
  split; [reflexivity|]. split; [right; left; split; reflexivity|]. split; [split; reflexivity|].
  split; [split; [reflexivity|split; [vm_compute; split; discriminate|vm_compute; reflexivity]]|]. split; [left; split; reflexivity|].
  split; [vm_compute; reflexivity|]. split; [exists ex_i1, (BA ex_secret); split; [left; reflexivity|split; reflexivity]|].
  eexists. split; [vm_compute; reflexivity|]. split; [eexists; split; [right; left; reflexivity|reflexivity]|].
  split; [eexists; split; [left; reflexivity|reflexivity]|].
  eexists. exists []. split; [vm_compute; reflexivity|]. split; [vm_compute; discriminate|]. split; [reflexivity|vm_compute; reflexivity].
Qed.
(** push-only, with the exact condition, and an unhashed lock *)
Example C118_ex_plain : Forall (fun i => bZ (i_op i) <= 96) [Instr x53 None; ex_i1]
  /\ verify (ready (Script None []) [] 32) (Script None [Instr x53 None; ex_i1]) (Script None [Instr xa7 None; ex_i2; Instr x87 None]) 32 = Ok (true, IE_None)
  /\ plain 135 (Instr x87 None) /\ compares (Instr x87 None) [] /\ pushes_data ex_i1 (BA ex_secret)
  /\ verify (ready (Script None []) [] 0) (Script None [ex_i1; Instr x76 None]) (Script None [ex_i1; Instr x87 None]) 0 = Ok (true, IE_None)
  /\ verify (ready (Script None []) [] 0) (Script None [ex_i2]) (Script None [ex_i1; Instr x87 None]) 0 = Ok (false, IE_EvalFalseInStack).
Proof.
  split; [repeat constructor; vm_compute; discriminate|]. split; [vm_compute; reflexivity|]. split; [split; reflexivity|]. split; [right; split; [split; reflexivity|reflexivity]|].
  split; [split; [reflexivity|split; [vm_compute; split; discriminate|vm_compute; reflexivity]]|]. split; [vm_compute; reflexivity|vm_compute; reflexivity].
Qed.
