(** Specifications for scripts that can never be spent. *)
From Verif Require Import Base M_Keys M_Script M_Interp S_Interp.
Open Scope Z_scope.

(** RESERVED VER VERIF VERNOTIF RETURN RESERVED1 RESERVED2, the disabled opcodes, HASH160
    CHECKSIG CHECKSIGVERIFY CHECKLOCKTIMEVERIFY, and everything past NOP10 *)
Definition dead (z : Z) : Prop :=
  z = 80 \/ z = 98 \/ z = 101 \/ z = 102 \/ z = 106 \/ z = 137 \/ z = 138 \/
  126 <= z <= 129 \/ 131 <= z <= 134 \/ z = 141 \/ z = 142 \/ 149 <= z <= 153 \/
  z = 169 \/ z = 172 \/ z = 173 \/ z = 177 \/ 186 <= z.
(** those that also fail in a branch that is not taken *)
Definition dead_anywhere (z : Z) : Prop :=
  z = 101 \/ z = 102 \/ 126 <= z <= 129 \/ 131 <= z <= 134 \/ z = 141 \/ z = 142 \/ 149 <= z <= 153.

(** A dead opcode is met whatever the stack holds: at the top level, or in both branches of a
    conditional at the top level. *)
Inductive doomed : list instr -> Prop :=
  | doom_op pre i post : block (ops pre) -> dead (bZ (i_op i)) -> doomed (pre ++ i :: post)
  | doom_if pre c a e b rest : block (ops pre) -> bZ (i_op c) = 99 \/ bZ (i_op c) = 100 ->
      block (ops a) -> bZ (i_op e) = 103 -> doomed a -> doomed b ->
      doomed (pre ++ c :: a ++ e :: b ++ rest).

(** Reasons that do not depend on which branch is taken. *)
Definition broken (s : script) : Prop :=
  Exists (fun i => dead_anywhere (bZ (i_op i)) \/ long_push i) (s_ins s) \/
  201 < counted_ops (s_ins s) \/ ~ block (ops (s_ins s)) \/
  (exists b, script_to_bytes s = Ok b /\ 10000 < blen b).
