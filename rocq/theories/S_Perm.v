(** Scripts that rearrange the stack (specification). *)
From Coq Require Import ZArith List.
From Verif Require Import Base M_Script S_Ref S_Formula.
Import ListNotations.
Open Scope Z_scope.

(** The items with the given numbers, 0 being the first of [items]. *)
Definition select {A} (d : A) (items : list A) (sel : list nat) : list A := map (fun i => nth i items d) sel.
(** Copy the chosen items to the top, the last one first: a number and PICK for each. *)
Fixpoint copies (sel : list nat) : list instr :=
  match sel with [] => [] | x :: r => copies r ++ [push_number (Z.of_nat (length r + x)); word x79] end.
(** Remove [n] items below the [m] uppermost: m ROLL DUP 2DROP, [n] times. *)
Fixpoint remove (m n : nat) : list instr :=
  match n with O => [] | S n => [push_number (Z.of_nat m); word x7a; word x76; word x6d] ++ remove m n end.
(** The [n] uppermost items are replaced by the chosen ones among them. *)
Definition arrange (n : nat) (sel : list nat) : list instr := copies sel ++ remove (length sel) n.
Definition arrange_cost (n : nat) (sel : list nat) : Z := Z.of_nat (length sel) + 3 * Z.of_nat n.
(** Operations in a script that does not count keys. *)
Definition ops_of (l : list instr) : Z := blen (filter (fun i => 96 <? bZ (i_op i)) l).
Definition no_multisig (l : list instr) : Prop := Forall (fun i => bZ (i_op i) <> 174 /\ bZ (i_op i) <> 175) l.
