(** Specifications for what a script can see: the items below the ones it uses, the script that
    ran before it, and the flags. *)
From Verif Require Import Base M_Keys M_Script S_Script M_Interp S_Interp S_Ref.
Open Scope Z_scope.

(** The same state with more items at the bottom of the stack. *)
Definition under (base : list pyb) (st : interp) : interp :=
  Interp (base ++ s_stack st) (s_alt st) (s_pc st) (s_begin st) (s_nop st) (s_vf st) (s_errstr st) (s_flags st) (s_script st).
(** DEPTH, and DROP (which takes a second item when there is one): the opcodes that notice. *)
Definition notice : list Z := [116; 117].
(** Failures for want of items. *)
Definition underflow (o : outcome) : Prop := o = Fail IE_InvalidStack \/ o = Fail IE_Unbalanced.

(** A flag word with no more flags than another. *)
Definition fewer (g f : Z) : Prop := forall k, flag g k -> flag f k.
(** The same state under other flags. *)
Definition flagged (g : Z) (st : interp) : interp :=
  Interp (s_stack st) (s_alt st) (s_pc st) (s_begin st) (s_nop st) (s_vf st) (s_errstr st) g (s_script st).

(** Two scripts as one. *)
Definition join (a b : list instr) : script := Script None (a ++ b).
(** Instructions that only put an item on the stack: data of at most 75 bytes, and the constants
    -1 and 1 to 16. *)
Definition pushing (i : instr) : Prop := bZ (i_op i) <= 75 \/ bZ (i_op i) = 79 \/ 81 <= bZ (i_op i) <= 96.
