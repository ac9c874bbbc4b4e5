(** C122: spending policies as scripts. *)
From Coq Require Import ZArith List Lia.
From Verif Require Import Base M_Hash S_Codec M_Keys M_Script S_Script M_Interp S_Interp S_Ref S_Formula P_Formula S_Policy P_Policy.
Import ListNotations.
Open Scope Z_scope.

Theorem C122_verify : forall self p xs fl, policy_ok p -> policy_operations p <= 201 -> blen xs + policy_cells p <= 1000 -> Forall (fun x => 1 <= blen x <= 75) xs -> sized (supply xs) ->
  ~ flag fl P2SH -> ~ flag fl MINIMALDATA ->
  (verify self (supply xs) (policy_script p) fl = Ok (true, IE_None) <-> exists r, satisfy first_bool 3 false p (rev xs) = Some (true, r)).
Proof. exact policy_verify. Qed.
Print Assumptions C122_verify.

Theorem C122_bitcoin : forall p xs fl, policy_ok p -> policy_operations p <= 201 -> blen xs + policy_cells p <= 1000 -> Forall (fun x => 1 <= blen x <= 75) xs -> ~ flag fl MINIMALDATA ->
  (ref_accepts (bitcoin fl) (ref_script (supply xs)) (ref_script (policy_script p)) <-> exists r, satisfy bitcoin_bool 4 false p (rev xs) = Some (true, r)).
Proof. exact policy_bitcoin. Qed.
Print Assumptions C122_bitcoin.

Theorem C122_needs : forall self p xs fl, policy_ok p -> policy_operations p <= 201 -> blen xs + policy_cells p <= 1000 -> Forall (fun x => 1 <= blen x <= 75) xs -> ~ flag fl MINIMALDATA ->
  verify self (supply xs) (policy_script p) fl = Ok (true, IE_None) -> opens 3 false (fun x => In x xs) p.
Proof. exact policy_needs. Qed.
Print Assumptions C122_needs.

Theorem C122_enough : forall (know : bytes -> Prop) p fl, policy_ok p -> policy_operations p <= 201 -> policy_cells p <= 900 -> ~ flag fl P2SH -> ~ flag fl MINIMALDATA ->
  (forall x, know x -> 1 <= blen x <= 75) -> opens 3 false know p ->
  exists xs, Forall (fun x => know x \/ x = [x00] \/ x = [x01]) xs /\ (forall self, verify self (supply xs) (policy_script p) fl = Ok (true, IE_None))
    /\ ref_accepts (bitcoin fl) (ref_script (supply xs)) (ref_script (policy_script p)).
Proof. exact policy_enough. Qed.
Print Assumptions C122_enough.

Theorem C122_exactly : forall self (know : bytes -> Prop) p fl, policy_ok p -> policy_operations p <= 201 -> policy_cells p <= 900 -> ~ flag fl P2SH -> ~ flag fl MINIMALDATA ->
  (forall x, know x -> 1 <= blen x <= 75) -> know [x00] -> know [x01] ->
  ((exists xs, Forall know xs /\ blen xs <= 100 /\ verify self (supply xs) (policy_script p) fl = Ok (true, IE_None)) <-> opens 3 false know p).
Proof. exact policy_exactly. Qed.
Print Assumptions C122_exactly.

Theorem C122_wider : forall self p xs fl, policy_ok p -> policy_operations p <= 201 -> blen xs <= 100 -> policy_cells p <= 900 -> Forall (fun x => 1 <= blen x <= 75) xs ->
  ~ flag fl P2SH -> ~ flag fl MINIMALDATA ->
  verify self (supply xs) (policy_script p) fl = Ok (true, IE_None) ->
  exists ys, Forall (fun x => In x xs \/ x = [x00] \/ x = [x01]) ys /\ ref_accepts (bitcoin fl) (ref_script (supply ys)) (ref_script (policy_script p)).
Proof. exact policy_wider. Qed.
Print Assumptions C122_wider.

Theorem C122_same_items_refuted : exists p xs, policy_ok p /\ policy_operations p <= 201 /\ policy_cells p <= 900 /\ Forall (fun x => 1 <= blen x <= 75) xs /\
  (forall self, verify self (supply xs) (policy_script p) 0 = Ok (true, IE_None)) /\ ~ ref_accepts (bitcoin 0) (ref_script (supply xs)) (ref_script (policy_script p)).
Proof. exact policy_items_differ. Qed.
Print Assumptions C122_same_items_refuted.

(** Either the SHA256 preimage and a number of at least 10, or the RIPEMD160 preimage. *)
Definition ex_hash : bytes := Eval vm_compute in sha256 [x61; x62; x63].
Definition ex_hash' : bytes := Eval vm_compute in ripemd160 [x78].
Definition ex_policy : policy :=
  P_or (P_and (P_leaf (L_hash H_sha256 ex_hash)) (P_leaf (L_number (F_bin B_ge (F_arg 0) (F_num 10))))) (P_leaf (L_hash H_ripemd160 ex_hash')).
Example C122_ex : policy_ok ex_policy /\ policy_operations ex_policy = 14 /\ policy_cells ex_policy = 2 /\ policy_items ex_policy = 4 /\ List.length (policy_code ex_policy) = 18%nat
  /\ satisfy first_bool 3 false ex_policy [[x01]; [x61; x62; x63]; [x0c]] = Some (true, []) /\ satisfy first_bool 3 false ex_policy [[x00]; [x78]] = Some (true, [])
  /\ satisfy first_bool 3 false ex_policy [[x01]; [x61; x62; x63]; [x09]] = Some (false, []) /\ satisfy first_bool 3 false ex_policy [[x01]; [x78]; [x0c]] = None.
Proof. split; [cbn -[blen]; change (blen ex_hash) with 32; change (blen ex_hash') with 20; lia|]. repeat split; vm_compute; reflexivity. Qed.
Example C122_ex_verify : forall self, verify self (supply [[x0c]; [x61; x62; x63]; [x01]]) (policy_script ex_policy) 0 = Ok (true, IE_None)
  /\ verify self (supply [[x78]; [x00]]) (policy_script ex_policy) 0 = Ok (true, IE_None) /\ verify self (supply [[x78]; [x01]]) (policy_script ex_policy) 0 = Ok (false, IE_Verify).
Proof. intros self. repeat split; vm_compute; reflexivity. Qed.
Example C122_ex_opens : opens 3 false (fun x => x = [x78] \/ x = [x00] \/ x = [x01]) ex_policy /\ ~ opens 3 false (fun x => x = [x00] \/ x = [x01]) ex_policy.
Proof.
  split; [right; exists [x78]; split; [left; reflexivity|vm_compute; reflexivity]|]. intros [(_ & H)|H]; destruct H as (x & [->| ->] & H); vm_compute in H; discriminate H.
Qed.
