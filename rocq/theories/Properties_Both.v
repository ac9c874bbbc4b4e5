(** C130: locking scripts can be joined to one that demands all of them. *)
From Coq Require Import ZArith List Lia Strings.Byte.
From Verif Require Import Base S_Codec M_Keys M_Script S_Script M_Interp S_Interp S_Ref S_Formula S_Perm S_Table S_Among S_Both P_Both.
Import ListNotations.
Open Scope Z_scope.

Theorem C130_verify : forall self l1 l2 xs1 xs2 fl, level 0 l1 = true -> no_alt l1 -> no_multisig l2 -> readable (Script None l1) -> readable (Script None l2) -> leaves_one (bitforge fl) l1 (rev xs1) ->
  ops_of (both (length xs2) l1 l2) <= 201 -> sized (Script None (both (length xs2) l1 l2)) -> Forall short_item (xs1 ++ xs2) -> blen (xs1 ++ xs2) <= 1000 -> sized (supply (xs1 ++ xs2)) -> ~ flag fl MINIMALDATA ->
  (verify self (supply (xs1 ++ xs2)) (Script None (both (length xs2) l1 l2)) fl = Ok (true, IE_None) <->
   verify self (supply xs1) (Script None l1) fl = Ok (true, IE_None) /\ verify self (supply xs2) (Script None l2) fl = Ok (true, IE_None)).
Proof. exact both_verify. Qed.
Print Assumptions C130_verify.

Theorem C130_bitcoin : forall l1 l2 xs1 xs2 fl, level 0 l1 = true -> no_alt l1 -> no_multisig l2 -> leaves_one (bitcoin fl) l1 (rev xs1) ->
  ops_of (both (length xs2) l1 l2) <= 201 -> Forall short_item (xs1 ++ xs2) -> blen (xs1 ++ xs2) + 3 * blen l1 <= 1000 -> ~ flag fl MINIMALDATA ->
  (ref_accepts (bitcoin fl) (ref_script (supply (xs1 ++ xs2))) (ref_script (Script None (both (length xs2) l1 l2))) <->
   ref_accepts (bitcoin fl) (ref_script (supply xs1)) (ref_script (Script None l1)) /\ ref_accepts (bitcoin fl) (ref_script (supply xs2)) (ref_script (Script None l2))).
Proof. exact both_bitcoin. Qed.
Print Assumptions C130_bitcoin.

(** any number of scripts *)
Theorem C130_all : forall self ls xss fl, ls <> [] -> Forall (fun p => level 0 (snd p) = true /\ no_alt (snd p) /\ readable (Script None (snd p))) ls ->
  Forall2 (fun p xs => length xs = fst p /\ leaves_one (bitforge fl) (snd p) (rev xs)) ls xss -> ops_of (all_of ls) <= 201 -> sized (Script None (all_of ls)) ->
  Forall short_item (concat xss) -> blen (concat xss) <= 1000 -> sized (supply (concat xss)) -> ~ flag fl MINIMALDATA ->
  (verify self (supply (concat xss)) (Script None (all_of ls)) fl = Ok (true, IE_None) <-> Forall2 (fun p xs => verify self (supply xs) (Script None (snd p)) fl = Ok (true, IE_None)) ls xss).
Proof. exact all_verify. Qed.
Print Assumptions C130_all.

Theorem C130_all_bitcoin : forall ls xss fl, Forall (fun p => level 0 (snd p) = true /\ no_alt (snd p)) ls ->
  Forall2 (fun p xs => length xs = fst p /\ leaves_one (bitcoin fl) (snd p) (rev xs)) ls xss -> ops_of (all_of ls) <= 201 ->
  Forall short_item (concat xss) -> blen (concat xss) + 3 * blen (all_of ls) <= 1000 -> ~ flag fl MINIMALDATA ->
  (ref_accepts (bitcoin fl) (ref_script (supply (concat xss))) (ref_script (Script None (all_of ls))) <-> Forall2 (fun p xs => ref_accepts (bitcoin fl) (ref_script (supply xs)) (ref_script (Script None (snd p)))) ls xss).
Proof. exact all_bitcoin. Qed.
Print Assumptions C130_all_bitcoin.

(** what the first leaves under the item tested is seen by the second *)
Theorem C130_left : forall l1 l2 s1 s2 fl, level 0 l1 = true -> no_alt l1 -> no_multisig l2 -> ops_of (both (length s2) l1 l2) <= 201 ->
  ref_eval (bitforge fl) (map ref_instr (both (length s2) l1 l2)) (s2 ++ s1) =
  match ref_run (bitforge fl) (map ref_instr l1) (RState s1 [] [] 0) with
  | Some (RState (x :: t) _ _ _) => if first_bool x then ref_eval (bitforge fl) (map ref_instr l2) (s2 ++ t) else None
  | _ => None
  end.
Proof. exact both_left. Qed.
Print Assumptions C130_left.

(** what is joined can be joined again, as an alternative (C128) or in the second place *)
Theorem C130_nested : forall m l1 l2, level 0 l1 = true -> level 0 l2 = true -> level 0 (both m l1 l2) = true /\ ops_of (both m l1 l2) = 2 * Z.of_nat m + 1 + ops_of l1 + ops_of l2.
Proof. exact both_nested. Qed.
Print Assumptions C130_nested.

(** without [leaves_one] it is false: the first leaves an item that satisfies the second *)
Theorem C130_leftover_refuted : exists l1 l2 xs1 xs2, level 0 l1 = true /\ no_alt l1 /\ no_multisig l2 /\ readable (Script None l1) /\ readable (Script None l2) /\
  (forall self, verify self (supply (xs1 ++ xs2)) (Script None (both (length xs2) l1 l2)) 0 = Ok (true, IE_None)) /\
  (forall self, verify self (supply xs2) (Script None l2) 0 <> Ok (true, IE_None)).
Proof. exact leftover_refuted. Qed.
Print Assumptions C130_leftover_refuted.

(** the sum of two items is 5, and an item is 7 *)
Example C130_ex : level 0 sum5 = true /\ no_alt sum5 /\ no_multisig is7 /\ readable (Script None sum5) /\ readable (Script None is7) /\
  leaves_one (bitforge 0) sum5 (rev [[x02]; [x03]]) /\ leaves_one (bitcoin 0) sum5 (rev [[x02]; [x03]]) /\ leaves_one (bitforge 0) is7 (rev [[x07]]) /\
  ops_of (both 1 sum5 is7) = 6 /\ map i_op (both 1 sum5 is7) = [x6b; x93; x55; x9c; x69; x6c; x57; x9c] /\ all_of [(2%nat, sum5); (1%nat, is7)] = both 1 sum5 (both 0 is7 [word x51]) /\
  (exists w, script_to_bytes (Script None (both 1 sum5 is7)) = Ok w /\ blen w = 8) /\
  (forall self, verify self (supply ([[x02]; [x03]] ++ [[x07]])) (Script None (both 1 sum5 is7)) 0 = Ok (true, IE_None)) /\
  (forall self, verify self (supply ([[x02]; [x02]] ++ [[x07]])) (Script None (both 1 sum5 is7)) 0 <> Ok (true, IE_None)) /\
  (forall self, verify self (supply ([[x02]; [x03]] ++ [[x06]])) (Script None (both 1 sum5 is7)) 0 <> Ok (true, IE_None)) /\
  (forall self, verify self (supply (concat [[[x02]; [x03]]; [[x07]]])) (Script None (all_of [(2%nat, sum5); (1%nat, is7)])) 0 = Ok (true, IE_None)).
Proof.
  split; [reflexivity|]. split; [repeat constructor; vm_compute; discriminate|]. split; [repeat constructor; vm_compute; discriminate|].
  split; [repeat constructor; vm_compute; intuition discriminate|]. split; [repeat constructor; vm_compute; intuition discriminate|].
  split; [intros st; vm_compute; intros [= <-]; eexists; reflexivity|]. split; [intros st; vm_compute; intros [= <-]; eexists; reflexivity|]. split; [intros st; vm_compute; intros [= <-]; eexists; reflexivity|].
  split; [reflexivity|]. split; [reflexivity|]. split; [reflexivity|]. split; [eexists; split; [vm_compute; reflexivity|reflexivity]|].
  split; [|split; [|split]]; intros self; vm_compute; try reflexivity; discriminate.
Qed.
