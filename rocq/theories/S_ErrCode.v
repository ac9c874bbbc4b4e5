(** Which error is reported (specification). *)
From Coq Require Import ZArith List.
From Verif Require Import Base M_Keys M_Script M_Interp S_Codec S_Script S_Interp.
Import ListNotations.
Open Scope Z_scope.

(** Bits of the flags for lock times and for unknown no-operations. *)
Definition DISCOURAGE := 7.
Definition LOCKTIME := 9.
(** A number of at most four bytes, the operand of CHECKLOCKTIMEVERIFY. *)
Definition time_operand (minimal : bool) (p : pyb) (n : Z) : Prop :=
  (exists l, p = BA l /\ blen l <= 4 /\ sm_val l = n /\ (minimal = true -> sm_shortest l)) \/ (p = Str [] /\ n = 0).
(** A byte for which there is an opcode of its own: 1 to 16 and -1. *)
Definition has_own_opcode (d : bytes) : Prop := exists c, d = [c] /\ (1 <= bZ c <= 16 \/ bZ c = 129).
