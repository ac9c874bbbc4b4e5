(** C128: locking scripts can be joined to one that leaves the choice to the spender. *)
From Coq Require Import ZArith List Lia Strings.Byte.
From Verif Require Import Base S_Codec M_Keys M_Script S_Script M_Interp S_Interp S_Ref S_Formula S_Perm S_Table S_Among P_Among.
Import ListNotations.
Open Scope Z_scope.

Theorem C128_verify : forall self ls zs fl, Forall (fun l => level 0 l = true /\ readable (Script None l)) ls -> among_cost ls <= 201 -> sized (Script None (among ls)) ->
  Forall short_item zs -> blen zs <= 1000 -> sized (supply zs) -> ~ flag fl MINIMALDATA ->
  (verify self (supply zs) (Script None (among ls)) fl = Ok (true, IE_None) <->
   exists l ys, chosen first_bool ls (rev zs) = Some (l, rev ys) /\ verify self (supply ys) (Script None l) fl = Ok (true, IE_None)).
Proof. exact among_verify. Qed.
Print Assumptions C128_verify.

Theorem C128_choose : forall self ls i ys fl, Forall (fun l => level 0 l = true /\ readable (Script None l)) ls -> among_cost ls <= 201 -> sized (Script None (among ls)) ->
  Forall short_item ys -> blen (ys ++ choose i) <= 1000 -> sized (supply (ys ++ choose i)) -> ~ flag fl MINIMALDATA ->
  (verify self (supply (ys ++ choose i)) (Script None (among ls)) fl = Ok (true, IE_None) <-> exists l, nth_error ls i = Some l /\ verify self (supply ys) (Script None l) fl = Ok (true, IE_None)).
Proof. exact choose_verify. Qed.
Print Assumptions C128_choose.

Theorem C128_bitcoin : forall fl ls s, Forall (fun l => level 0 l = true) ls -> among_cost ls <= 201 -> blen s <= 1000 ->
  ref_eval (bitcoin fl) (map ref_instr (among ls)) s = match chosen bitcoin_bool ls s with Some (l, t) => ref_eval (bitcoin fl) (map ref_instr l) t | None => None end.
Proof. exact among_bitcoin. Qed.
Print Assumptions C128_bitcoin.

Theorem C128_bitcoin_choose : forall ls i ys fl, Forall (fun l => level 0 l = true) ls -> among_cost ls <= 201 -> Forall short_item ys -> blen (ys ++ choose i) <= 1000 -> ~ flag fl MINIMALDATA ->
  (ref_accepts (bitcoin fl) (ref_script (supply (ys ++ choose i))) (ref_script (Script None (among ls))) <-> exists l, nth_error ls i = Some l /\ ref_accepts (bitcoin fl) (ref_script (supply ys)) (ref_script (Script None l))).
Proof. exact choose_bitcoin. Qed.
Print Assumptions C128_bitcoin_choose.

(** what is joined can be joined again *)
Theorem C128_nested : forall ls, Forall (fun l => level 0 l = true) ls -> level 0 (among ls) = true /\ ops_of (among ls) = among_cost ls.
Proof. exact among_nested. Qed.
Print Assumptions C128_nested.

(** a branch in a joined script, executed or passed over, and the conditions around it *)
Theorem C128_under : forall D l s a c c0 k, level (length c) l = true -> Forall (eq true) c0 ->
  ref_run D (map ref_instr l) (RState s a (c ++ c0) k) = match ref_run D (map ref_instr l) (RState s a c k) with Some (RState s a _ k) => Some (RState s a c0 k) | None => None end.
Proof. exact run_under_all. Qed.
Print Assumptions C128_under.

Theorem C128_over : forall D l s a c1 c0 k, level (length c1) l = true -> In false c0 -> (d_each D = true -> blen s + blen a <= 1000) -> k + ops_of l <= 201 ->
  ref_run D (map ref_instr l) (RState s a (c1 ++ c0) k) = Some (RState s a c0 (k + ops_of l)).
Proof. exact run_passed. Qed.
Print Assumptions C128_over.

(** the sum of two items is 5, or (with a conditional of its own) an item is not zero, or 7 *)
Example C128_ex : let l0 := [word x93; word x55; word x9c] in let l1 := [word x63; word x51; word x67; word x57; word x9c; word x68] in
  Forall (fun l => level 0 l = true) [l0; l1] /\ readable (Script None l0) /\ readable (Script None l1) /\ among_cost [l0; l1] = 13 /\
  (exists w, script_to_bytes (Script None (among [l0; l1])) = Ok w /\ blen w = 16) /\
  (forall self, verify self (supply ([[x02]; [x03]] ++ choose 0)) (Script None (among [l0; l1])) 0 = Ok (true, IE_None)) /\
  (forall self, verify self (supply ([[x07]; [x00]] ++ choose 1)) (Script None (among [l0; l1])) 0 = Ok (true, IE_None)) /\
  (forall self, verify self (supply ([[x02]; [x00]] ++ choose 1)) (Script None (among [l0; l1])) 0 <> Ok (true, IE_None)) /\
  (forall self, verify self (supply ([[x02]; [x03]] ++ choose 2)) (Script None (among [l0; l1])) 0 <> Ok (true, IE_None)).
Proof.
  intros l0 l1. split; [repeat constructor|]. split; [repeat constructor; vm_compute; intuition discriminate|]. split; [repeat constructor; vm_compute; intuition discriminate|]. split; [reflexivity|].
  split; [eexists; split; [vm_compute; reflexivity|reflexivity]|]. split; [|split; [|split]]; intros self; vm_compute; try reflexivity; discriminate.
Qed.
