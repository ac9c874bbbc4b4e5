(** C127: every finite table is a script, and every finite set of spendings is a lock. *)
From Coq Require Import ZArith List Lia Strings.Byte.
From Verif Require Import Base S_Codec M_Keys M_Script S_Script M_Interp S_Interp S_Ref S_Formula P_Formula S_Table P_Table.
Import ListNotations.
Open Scope Z_scope.

Theorem C127_evaluate : forall n t xs rest stack fl, table_ok n t -> length xs = n -> table_cost n t <= 201 -> 18 * table_cost n t + 76 * results t <= 10000 ->
  rev (map pyb_bytes stack) = xs ++ rest -> Forall numeric_type stack -> blen stack + 3 <= 1000 -> (forall o, lookup t xs = Some o -> blen o + blen rest <= 1000) -> ~ flag fl MINIMALDATA -> forall s,
  (exists st, evaluate (ready (Script None (tabulate n t)) stack fl) = Ok (Next st) /\ rev (map pyb_bytes (s_stack st)) = s) <-> exists o, lookup t xs = Some o /\ s = o ++ rest.
Proof. exact table_evaluate. Qed.
Print Assumptions C127_evaluate.

Theorem C127_bitcoin : forall n t xs rest fl, table_ok n t -> length xs = n -> table_cost n t <= 201 -> blen xs + blen rest + 3 <= 1000 ->
  (forall o, lookup t xs = Some o -> blen o + blen rest <= 1000) -> ~ flag fl MINIMALDATA ->
  ref_eval (bitcoin fl) (map ref_instr (tabulate n t)) (xs ++ rest) = match lookup t xs with Some o => Some (o ++ rest) | None => None end.
Proof. exact table_bitcoin. Qed.
Print Assumptions C127_bitcoin.

Theorem C127_bytes : forall n t, table_ok n t -> (n < 1000)%nat -> exists w, wire_script (map content (tabulate n t)) w /\ blen w <= 18 * table_cost n t + 76 * results t.
Proof. exact table_bytes. Qed.
Print Assumptions C127_bytes.

Theorem C127_verify : forall self n l ys fl, Forall (fun a => length a = n /\ Forall short_item a) l -> (5 * Z.of_nat n + 3) * blen l + 1 <= 201 -> (n <= 997)%nat -> length ys = n -> Forall short_item ys ->
  sized (supply ys) -> ~ flag fl P2SH -> ~ flag fl MINIMALDATA -> (verify self (supply ys) (only n l) fl = Ok (true, IE_None) <-> In ys l).
Proof. exact only_verify. Qed.
Print Assumptions C127_verify.

Theorem C127_bitcoin_verify : forall n l ys fl, Forall (fun a => length a = n /\ Forall short_item a) l -> (5 * Z.of_nat n + 3) * blen l + 1 <= 201 -> (n <= 997)%nat -> length ys = n -> Forall short_item ys ->
  ~ flag fl MINIMALDATA -> (ref_accepts (bitcoin fl) (ref_script (supply ys)) (ref_script (only n l)) <-> In ys l).
Proof. exact only_bitcoin. Qed.
Print Assumptions C127_bitcoin_verify.

(** a table with two arguments and two rows; the item under the arguments stays *)
Example C127_ex : let t := [([[x03]; [x05]], [[x08]]); ([[x05]; [x03]], [[x02]; [x09; x09]])] in let stack := [BA [x07]; BA [x03]; BA [x05]] in
  table_ok 2 t /\ table_cost 2 t = 27 /\ results t = 3 /\ rev (map pyb_bytes stack) = [[x05]; [x03]] ++ [[x07]] /\ Forall numeric_type stack /\ lookup t [[x05]; [x03]] = Some [[x02]; [x09; x09]] /\
  lookup t [[x05]; [x05]] = None /\
  exists st, evaluate (ready (Script None (tabulate 2 t)) stack 0) = Ok (Next st) /\ s_stack st = [BA [x07]; BA [x09; x09]; BA [x02]].
Proof.
  intros t stack. split; [repeat constructor; vm_compute; discriminate|]. split; [reflexivity|]. split; [reflexivity|]. split; [reflexivity|]. split; [repeat constructor|].
  split; [cbn [t lookup]; repeat (destruct (list_eq_dec _ _ _); [congruence|]); congruence|]. split; [cbn [t lookup]; repeat (destruct (list_eq_dec _ _ _); [congruence|]); reflexivity|].
  eexists. split; [vm_compute; reflexivity|reflexivity].
Qed.

(** a lock with two keys of two items each *)
Example C127_verify_ex : let l := [[[x03]; [x05]]; [[x05; x01]; [x09]]] in
  Forall (fun a => length a = 2%nat /\ Forall short_item a) l /\ (5 * 2 + 3) * blen l + 1 = 27 /\
  (exists w, script_to_bytes (supply [[x03]; [x05]]) = Ok w /\ blen w = 4) /\
  (forall self, verify self (supply [[x03]; [x05]]) (only 2 l) 0 = Ok (true, IE_None)) /\
  (forall self, verify self (supply [[x05; x01]; [x09]]) (only 2 l) 0 = Ok (true, IE_None)) /\
  (forall self, verify self (supply [[x05]; [x03]]) (only 2 l) 0 <> Ok (true, IE_None)).
Proof.
  intros l. split; [repeat constructor; vm_compute; discriminate|]. split; [reflexivity|]. split; [eexists; split; [vm_compute; reflexivity|reflexivity]|].
  split; [|split]; intros self; vm_compute; try reflexivity; discriminate.
Qed.
