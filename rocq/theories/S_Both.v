(** Demanding two locking scripts at once (specification). *)
From Coq Require Import ZArith List Strings.Byte.
From Verif Require Import Base M_Script S_Ref S_Formula S_Perm S_Among.
Import ListNotations.
Open Scope Z_scope.

(** TOALTSTACK and FROMALTSTACK do not occur. *)
Definition no_alt (l : list instr) : Prop := Forall (fun i => bZ (i_op i) <> 107 /\ bZ (i_op i) <> 108) l.
(** The first script sees the items under the [m] uppermost ones, the second these. *)
Definition both (m : nat) (l1 l2 : list instr) : list instr :=
  repeat (word x6b) m ++ l1 ++ [word x69] ++ repeat (word x6c) m ++ l2.
(** Whatever the script does with this stack (uppermost item first), it leaves one item. *)
Definition leaves_one (D : dialect) (l : list instr) (s : list bytes) : Prop :=
  forall st, ref_run D (map ref_instr l) (RState s [] [] 0) = Some st -> exists x, r_main st = [x].
(** Several scripts, with the number of items each of them is given; the last takes the uppermost
    items. *)
Fixpoint all_of (ls : list (nat * list instr)) : list instr :=
  match ls with
  | [] => [word x51]
  | (_, l) :: r => both (fold_right (fun p n => (fst p + n)%nat) O r) l (all_of r)
  end.

(** For the example: the sum of two items is 5, an item is 7. *)
Definition sum5 : list instr := [word x93; word x55; word x9c].
Definition is7 : list instr := [word x57; word x9c].
