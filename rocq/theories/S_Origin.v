(** Specification: which byte strings can be obtained from given ones by hashing. *)
From Coq Require Import ZArith List.
From Verif Require Import Base M_Codec M_Script M_Interp S_Interp.
Open Scope Z_scope.

(** [b] is the data of an instruction of the list *)
Definition pushed (l : list instr) (b : bytes) : Prop := exists i d, In i l /\ i_data i = Some d /\ pyb_bytes d = b.

(** the strings of [src], all strings of at most four bytes, and the RIPEMD160, SHA1, SHA256 and double SHA256 of such *)
Inductive made (src : bytes -> Prop) : bytes -> Prop :=
  | made_src b : src b -> made src b
  | made_short b : blen b <= 4 -> made src b
  | made_hash z f b : hash_op z f -> made src b -> made src (f b).
(** the bytes of the items of both stacks *)
Definition holds_item (st : interp) (b : bytes) : Prop := exists p, In p (s_stack st ++ s_alt st) /\ pyb_bytes p = b.
(** a comparison of the two uppermost items that ends the script, or that must hold *)
Definition compares (e : instr) (rest : list instr) : Prop := plain 136 e \/ (plain 135 e /\ rest = nil).
