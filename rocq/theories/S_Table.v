(** Finite tables as scripts (specification). *)
From Coq Require Import ZArith List Strings.Byte.
From Verif Require Import Base M_Script S_Ref S_Formula.
Import ListNotations.
Open Scope Z_scope.

(** Rows of arguments and results; lists of items are read from the top of the stack. *)
Definition table : Type := list (list bytes * list bytes).
(** The results of the first row with these arguments. *)
Fixpoint lookup (t : table) (args : list bytes) : option (list bytes) :=
  match t with
  | [] => None
  | (a, o) :: r => if list_eq_dec (list_eq_dec byte_eq_dec) a args then Some o else lookup r args
  end.
(** Rows have [n] arguments; all items have 1 to 75 bytes. *)
Definition short_item (x : bytes) : Prop := 1 <= blen x <= 75.
Definition table_ok (n : nat) (t : table) : Prop :=
  Forall (fun r => length (fst r) = n /\ Forall short_item (fst r) /\ Forall short_item (snd r)) t.

Definition datum (x : bytes) : instr := Instr (Zb (blen x)) (Some (BA x)).
(** Leaves 1 if the items from number [i] on are the given ones, 0 if not: for each of them PICK,
    the item, EQUAL and BOOLAND. *)
Fixpoint test (i : nat) (args : list bytes) : list instr :=
  match args with
  | [] => [push_number 1]
  | a :: r => test (S i) r ++ [push_number (Z.of_nat (S i)); word x79; datum a; word x87; word x9a]
  end.
(** Take [n] items away: DUP 2DROP. *)
Fixpoint discard (n : nat) : list instr := match n with O => [] | S n => [word x76; word x6d] ++ discard n end.
(** For each row: test, IF, take the arguments away and push the results, ELSE the other rows,
    ENDIF; RETURN at the end. *)
Fixpoint tabulate (n : nat) (t : table) : list instr :=
  match t with
  | [] => [word x6a]
  | (a, o) :: r => test 0 a ++ [word x63] ++ (discard n ++ map datum (rev o)) ++ [word x67] ++ tabulate n r ++ [word x68]
  end.
Definition table_cost (n : nat) (t : table) : Z := (5 * Z.of_nat n + 3) * blen t + 1.
(** The locking script that accepts the listed lists of pushes, the last item being on top. *)
Definition only (n : nat) (l : list (list bytes)) : script := Script None (tabulate n (map (fun a => (rev a, [[x01]])) l)).
(** Results in all rows. *)
Fixpoint results (t : table) : Z := match t with [] => 0 | (_, o) :: r => blen o + results r end.
