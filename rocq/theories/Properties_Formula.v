(** C121: formulas as scripts. *)
From Coq Require Import ZArith List.
From Verif Require Import Base S_Codec M_Keys M_Script S_Script M_Interp S_Interp S_Ref S_Formula P_Formula.
Import ListNotations.
Open Scope Z_scope.

Theorem C121_evaluate : forall f stack fl, modest f -> operations f <= 201 -> blen stack + cells f <= 1000 -> ~ flag fl MINIMALDATA -> Forall numeric_type stack -> forall t,
  (exists st, evaluate (ready (Script None (compile 0 f)) stack fl) = Ok (Next st) /\ rev (map pyb_bytes (s_stack st)) = t) <->
  (exists v, value 3 false (rev (map pyb_bytes stack)) f = Some v /\ t = script_num v :: rev (map pyb_bytes stack)).
Proof. exact compile_evaluate. Qed.
Print Assumptions C121_evaluate.

Theorem C121_verify : forall self f xs fl, modest f -> operations f <= 200 -> blen xs + cells f <= 1000 -> Forall (fun x => 1 <= blen x <= 75) xs -> sized (supply xs) ->
  ~ flag fl P2SH -> ~ flag fl MINIMALDATA ->
  (verify self (supply xs) (demand f) fl = Ok (true, IE_None) <-> exists v, value 3 false (rev xs) f = Some v /\ Z.abs v < 2 ^ 23 /\ v <> 0).
Proof. exact demand_verify. Qed.
Print Assumptions C121_verify.

Theorem C121_bitcoin_value : forall f s fl, modest f -> operations f <= 201 -> blen s + cells f <= 1000 ->
  ref_eval (bitcoin fl) (map ref_instr (compile 0 f)) s = match value 4 (Z.testbit fl MINIMALDATA) s f with Some v => Some (script_num v :: s) | None => None end.
Proof. exact compile_bitcoin. Qed.
Print Assumptions C121_bitcoin_value.

Theorem C121_bitcoin : forall f xs fl, modest f -> operations f <= 200 -> blen xs + cells f <= 1000 -> Forall (fun x => 1 <= blen x <= 75) xs -> ~ flag fl MINIMALDATA ->
  (ref_accepts (bitcoin fl) (ref_script (supply xs)) (ref_script (demand f)) <-> exists v, value 4 false (rev xs) f = Some v /\ Z.abs v < 2 ^ 31 /\ v <> 0).
Proof. exact demand_bitcoin. Qed.
Print Assumptions C121_bitcoin.

Theorem C121_wider : forall l l' m s f, 1 <= l <= l' -> forall v, value l m s f = Some v -> value l' m s f = Some v.
Proof. exact value_wider. Qed.
Print Assumptions C121_wider.

Theorem C121_sound : forall self f xs fl, modest f -> operations f <= 200 -> blen xs + cells f <= 1000 -> Forall (fun x => 1 <= blen x <= 75) xs -> sized (supply xs) ->
  ~ flag fl P2SH -> ~ flag fl MINIMALDATA ->
  verify self (supply xs) (demand f) fl = Ok (true, IE_None) -> ref_accepts (bitcoin fl) (ref_script (supply xs)) (ref_script (demand f)).
Proof. exact demand_sound. Qed.
Print Assumptions C121_sound.

Theorem C121_complete_refuted : exists f xs, modest f /\ operations f <= 200 /\ blen xs + cells f <= 1000 /\ Forall (fun x => 1 <= blen x <= 75) xs /\ sized (supply xs) /\
  ref_accepts (bitcoin 0) (ref_script (supply xs)) (ref_script (demand f)) /\ forall self, verify self (supply xs) (demand f) 0 <> Ok (true, IE_None).
Proof. exact demand_incomplete. Qed.
Print Assumptions C121_complete_refuted.

Theorem C121_size : forall f, modest f -> cells f <= 1000 -> exists w, wire_script (map content (compile 0 f)) w /\ blen w <= 5 + 12 * operations f.
Proof. exact compile_bytes. Qed.
Print Assumptions C121_size.

Theorem C121_one_of : forall self ns x fl, Forall (fun k => Z.abs k < 2 ^ 23) ns -> blen ns <= 40 -> 1 <= blen x <= 75 -> ~ flag fl P2SH -> ~ flag fl MINIMALDATA ->
  (verify self (supply [x]) (demand (one_of ns)) fl = Ok (true, IE_None) <-> exists n, item_number 3 false x = Some n /\ In n ns).
Proof. exact one_of_verify. Qed.
Print Assumptions C121_one_of.

(** if a < b then a + b = 7 else -3 <= a < 300, where a is the top item and b the one below *)
Definition ex_formula : formula :=
  F_if (F_bin B_lt (F_arg 0) (F_arg 1)) (F_bin B_eq (F_bin B_add (F_arg 0) (F_arg 1)) (F_num 7)) (F_within (F_arg 0) (F_num (-3)) (F_num 300)).
Example C121_ex : modest ex_formula /\ operations ex_formula = 23 /\ cells ex_formula = 3 /\ List.length (compile 0 ex_formula) = 31%nat
  /\ value 3 false [[x03]; [x04]] ex_formula = Some 1 /\ value 3 false [[x03]; [x05]] ex_formula = Some 0 /\ value 3 false [[xff; x00]; [x04]] ex_formula = Some 1
  /\ value 3 false [[x03]] ex_formula = None /\ value 3 false [[x03]; [x01; x00; x00; x01]] ex_formula = None
  /\ (forall self, verify self (supply [[x04]; [x03]]) (demand ex_formula) 0 = Ok (true, IE_None)).
Proof.
  split; [cbn; lia|]. split; [reflexivity|]. split; [reflexivity|]. split; [reflexivity|]. split; [reflexivity|]. split; [reflexivity|]. split; [reflexivity|]. split; [reflexivity|]. split; [reflexivity|].
  intros self. vm_compute. reflexivity.
Qed.
Example C121_ex_sized : sized (supply [[x04]; [x03]]) /\ readable (supply [[x04]; [x03]]) /\ ~ flag 0 P2SH /\ ~ flag 0 MINIMALDATA.
Proof.
  split; [|split; [apply supply_readable; repeat constructor; discriminate|split; discriminate]]. exists ([x01; x04] ++ [x01; x03] ++ []). split; [|discriminate].
  apply ws_cons; [apply wire_const; [split; discriminate|reflexivity]|]. apply ws_cons; [apply wire_const; [split; discriminate|reflexivity]|constructor].
Qed.
Example C121_ex_one_of : forall self, verify self (supply [[x2c; x01]]) (demand (one_of [5; 300; -7])) 0 = Ok (true, IE_None) /\ verify self (supply [[x2d; x01]]) (demand (one_of [5; 300; -7])) 0 = Ok (false, IE_EvalFalseInStack).
Proof. intros self. split; vm_compute; reflexivity. Qed.
