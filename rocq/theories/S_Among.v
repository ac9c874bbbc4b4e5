(** Choosing among locking scripts (specification). *)
From Coq Require Import ZArith List Strings.Byte.
From Verif Require Import Base M_Script S_Ref S_Formula S_Perm.
Import ListNotations.
Open Scope Z_scope.

(** An instruction that can be passed over: not a disabled opcode, VERIF or VERNOTIF, and at most
    520 bytes of data; the CHECKMULTISIG opcodes, whose count of operations depends on the stack,
    are left out. *)
Definition passable (i : instr) : bool :=
  negb (ref_disabled (bZ (i_op i))) && negb (bZ (i_op i) =? 101) && negb (bZ (i_op i) =? 102) &&
  negb (bZ (i_op i) =? 174) && negb (bZ (i_op i) =? 175) &&
  match i_data i with Some d => blen (pyb_bytes d) <=? 520 | None => true end.
(** Conditionals are balanced, started with [d] of them open. *)
Fixpoint level (d : nat) (l : list instr) : bool :=
  match l with
  | [] => match d with O => true | S _ => false end
  | i :: r =>
      passable i &&
      (if (bZ (i_op i) =? 99) || (bZ (i_op i) =? 100) then level (S d) r
       else if bZ (i_op i) =? 103 then match d with O => false | S _ => level d r end
       else if bZ (i_op i) =? 104 then match d with O => false | S d => level d r end
       else level d r)
  end.
Definition either (l1 l2 : list instr) : list instr := [word x63] ++ l1 ++ [word x67] ++ l2 ++ [word x68].
(** IF the first, ELSE IF the second, ...; RETURN if there is none. *)
Fixpoint among (ls : list (list instr)) : list instr :=
  match ls with [] => [word x6a] | l :: r => either l (among r) end.
Definition among_cost (ls : list (list instr)) : Z := fold_right (fun l n => 3 + ops_of l + n) 1 ls.
(** The script chosen by the items uppermost on the stack, and the items under these. *)
Fixpoint chosen {A} (T : bytes -> bool) (ls : list A) (s : list bytes) : option (A * list bytes) :=
  match ls, s with
  | l :: r, x :: s => if T x then Some (l, s) else chosen T r s
  | _, _ => None
  end.
(** Pushes that choose number [i]. *)
Definition choose (i : nat) : list bytes := [x01] :: repeat [x00] i.
