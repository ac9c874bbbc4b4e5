(** C126: every rearrangement of the stack is a script. *)
From Coq Require Import ZArith List Lia.
From Verif Require Import Base S_Codec M_Keys M_Script S_Script M_Interp S_Interp S_Ref S_Peep S_Formula P_Formula S_Perm P_Perm.
Import ListNotations.
Open Scope Z_scope.

Theorem C126_evaluate : forall sel items rest stack fl, Forall (fun i => (i < length items)%nat) sel -> arrange_cost (length items) sel <= 201 ->
  blen stack + Z.of_nat (length sel) + 1 <= 1000 -> ~ flag fl MINIMALDATA -> Forall numeric_type stack -> rev (map pyb_bytes stack) = items ++ rest ->
  exists st, evaluate (ready (Script None (arrange (length items) sel)) stack fl) = Ok (Next st) /\ rev (map pyb_bytes (s_stack st)) = select [] items sel ++ rest.
Proof. exact arrange_evaluate. Qed.
Print Assumptions C126_evaluate.

Theorem C126_bitcoin : forall fl sel items rest, Forall (fun i => (i < length items)%nat) sel -> arrange_cost (length items) sel <= 201 ->
  blen items + blen rest + Z.of_nat (length sel) + 1 <= 1000 ->
  ref_eval (bitcoin fl) (map ref_instr (arrange (length items) sel)) (items ++ rest) = Some (select [] items sel ++ rest).
Proof. exact (fun fl sel items rest => arrange_eval (bitcoin fl) sel items rest (usable_bitcoin fl)). Qed.
Print Assumptions C126_bitcoin.

Theorem C126_bytes : forall n sel, Forall (fun i => (i < n)%nat) sel -> arrange_cost n sel <= 201 ->
  exists w, wire_script (map content (arrange n sel)) w /\ blen w <= 6 * arrange_cost n sel.
Proof. exact arrange_bytes. Qed.
Print Assumptions C126_bytes.

Theorem C126_verify : forall self sel xs ys l fl, rev xs = select [] (rev ys) sel -> Forall (fun i => (i < length ys)%nat) sel ->
  arrange_cost (length ys) sel + ops_of l <= 201 -> no_multisig l -> readable (Script None l) -> sized (Script None (arrange (length ys) sel ++ l)) ->
  Forall (fun x => 1 <= blen x <= 75) ys -> sized (supply xs) -> sized (supply ys) -> ~ flag fl MINIMALDATA ->
  (verify self (supply ys) (Script None (arrange (length ys) sel ++ l)) fl = Ok (true, IE_None) <-> verify self (supply xs) (Script None l) fl = Ok (true, IE_None)).
Proof. exact reorder_verify. Qed.
Print Assumptions C126_verify.

Theorem C126_bitcoin_verify : forall fl sel items l, Forall (fun i => (i < length items)%nat) sel -> arrange_cost (length items) sel + ops_of l <= 201 -> no_multisig l ->
  blen items + Z.of_nat (length sel) + 1 <= 1000 ->
  ref_eval (bitcoin fl) (map ref_instr (arrange (length items) sel ++ l)) items = ref_eval (bitcoin fl) (map ref_instr l) (select [] items sel).
Proof. exact (fun fl sel items l => arrange_then (bitcoin fl) sel items l (usable_bitcoin fl)). Qed.
Print Assumptions C126_bitcoin_verify.

Theorem C126_stack_words : forall l, Forall stack_word l -> forall n,
  (exists sel, Forall (fun i => (i < n)%nat) sel /\ forall st, executing st -> s_nop st + blen l <= 201 -> length (s_stack st) = n ->
      forall s t, leaves (words l) st s t <-> s = select (BA []) (s_stack st) sel /\ t = s_alt st) \/
  (forall st, executing st -> s_nop st + blen l <= 201 -> length (s_stack st) = n -> forall s t, ~ leaves (words l) st s t).
Proof. exact words_select. Qed.
Print Assumptions C126_stack_words.

(** the two uppermost of three items, b a, are replaced by a b b (read from the top) *)
Example C126_ex : let stack := [BA [x07]; BA [x05]; BA [x03]] in
  Forall (fun i => (i < 2)%nat) [1; 0; 0]%nat /\ arrange_cost 2 [1; 0; 0]%nat = 9 /\ Forall numeric_type stack /\
  rev (map pyb_bytes stack) = [[x03]; [x05]] ++ [[x07]] /\ select [] [[x03]; [x05]] [1; 0; 0]%nat = [[x05]; [x03]; [x03]] /\
  (exists st, evaluate (ready (Script None (arrange 2 [1; 0; 0]%nat)) stack 0) = Ok (Next st) /\ s_stack st = [BA [x07]; BA [x03]; BA [x03]; BA [x05]]).
Proof.
  intros stack. split; [repeat constructor|]. split; [reflexivity|]. split; [repeat constructor|]. split; [reflexivity|]. split; [reflexivity|].
  eexists. split; [vm_compute; reflexivity|reflexivity].
Qed.
(** 5 3 | SUB 2 NUMEQUAL, and the same with 3 5 and the rearranging script in front *)
Example C126_verify_ex : let l := [word x94; word x52; word x9c] in let ys := [[x03]; [x05]] in let xs := [[x05]; [x03]] in let sel := [1; 0]%nat in
  rev xs = select [] (rev ys) sel /\ Forall (fun i => (i < 2)%nat) sel /\ arrange_cost 2 sel + ops_of l = 10 /\ no_multisig l /\ readable (Script None l) /\
  (exists w, script_to_bytes (Script None (arrange 2 sel ++ l)) = Ok w /\ blen w = 15) /\
  (forall self, verify self (supply xs) (Script None l) 0 = Ok (true, IE_None)) /\
  (forall self, verify self (supply ys) (Script None (arrange 2 sel ++ l)) 0 = Ok (true, IE_None)) /\
  (forall self, verify self (supply ys) (Script None l) 0 <> Ok (true, IE_None)).
Proof.
  intros l ys xs sel. split; [reflexivity|]. split; [repeat constructor|]. split; [reflexivity|]. split; [repeat constructor; vm_compute; discriminate|].
  split; [repeat constructor; vm_compute; intuition discriminate|]. split; [eexists; split; [vm_compute; reflexivity|reflexivity]|].
  split; [intros self; vm_compute; reflexivity|]. split; intros self; vm_compute; [reflexivity|discriminate].
Qed.
(** SWAP OVER *)
Example C126_words_ex : Forall stack_word [124; 120] /\ shuffle [124; 120] [0; 1; 2]%nat [0; 2; 1; 2]%nat.
Proof.
  split; [repeat constructor; [exists (2, [1; 0])%nat|exists (2, [0; 1; 0])%nat]; vm_compute; tauto|].
  apply (sh_word 124 2 [1; 0]%nat [120] [0]%nat [1; 2]%nat [2; 1]%nat); [vm_compute; tauto|reflexivity|repeat constructor|].
  apply (sh_word 120 2 [0; 1; 0]%nat [] [0]%nat [2; 1]%nat [2; 1; 2]%nat); [vm_compute; tauto|reflexivity|repeat constructor|]. constructor.
Qed.
