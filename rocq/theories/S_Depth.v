(** Specifications for the depths of the stacks: what each opcode needs and leaves, and scripts
    whose depths can be told without running them. *)
From Verif Require Import Base M_Script M_Interp.
Open Scope Z_scope.

(** Items needed on the main and on the alternative stack, and how many items each has more
    afterwards; none if that depends on the items or if the opcode is not executed like this. *)
Definition effect (z : Z) : option (Z * Z * Z * Z) :=
  if (0 <=? z) && (z <=? 79) || (81 <=? z) && (z <=? 96) then Some (0, 0, 1, 0)
  else match z with
  | 97 | 171 | 176 | 178 | 179 | 180 | 181 | 182 | 183 | 184 | 185 => Some (0, 0, 0, 0)
  | 105 => Some (1, 0, -1, 0)                                                   (* VERIFY *)
  | 107 => Some (1, 0, -1, 1)                                                   (* TOALTSTACK *)
  | 108 => Some (0, 1, 1, -1)                                                   (* FROMALTSTACK *)
  | 109 => Some (2, 0, -2, 0)                                                   (* 2DROP *)
  | 110 => Some (2, 0, 2, 0)                                                    (* 2DUP *)
  | 111 => Some (3, 0, 3, 0)                                                    (* 3DUP *)
  | 112 => Some (4, 0, 2, 0)                                                    (* 2OVER *)
  | 113 => Some (6, 0, 0, 0)                                                    (* 2ROT *)
  | 114 => Some (4, 0, 0, 0)                                                    (* 2SWAP *)
  | 116 => Some (0, 0, 1, 0)                                                    (* DEPTH *)
  | 118 | 130 => Some (1, 0, 1, 0)                                              (* DUP SIZE *)
  | 119 | 122 => Some (2, 0, -1, 0)                                             (* NIP ROLL *)
  | 120 | 125 => Some (2, 0, 1, 0)                                              (* OVER TUCK *)
  | 121 | 124 => Some (2, 0, 0, 0)                                              (* PICK SWAP *)
  | 123 => Some (3, 0, 0, 0)                                                    (* ROT *)
  | 139 | 140 | 143 | 144 | 145 | 146 => Some (1, 0, 0, 0)                      (* 1ADD .. 0NOTEQUAL *)
  | 135 | 147 | 148 | 154 | 155 | 156 | 158 | 159 | 160 | 161 | 162 | 163 | 164 => Some (2, 0, -1, 0)  (* EQUAL, ADD .. MAX *)
  | 136 | 157 => Some (2, 0, -2, 0)                                             (* EQUALVERIFY NUMEQUALVERIFY *)
  | 165 => Some (3, 0, -2, 0)                                                   (* WITHIN *)
  | 166 | 167 | 168 | 169 | 170 => Some (1, 0, 0, 0)                            (* hashes *)
  | 172 => Some (2, 0, -1, 0)                                                   (* CHECKSIG *)
  | 173 => Some (2, 0, -2, 0)                                                   (* CHECKSIGVERIFY *)
  | 177 => Some (1, 0, 0, 0)                                                    (* CHECKLOCKTIMEVERIFY *)
  | _ => None
  end.

(** PICK and ROLL need as many items as the number on top says. *)
Definition no_pick (i : instr) : Prop := bZ (i_op i) <> 121 /\ bZ (i_op i) <> 122.
(** Failures for want of items, of a matching IF or ENDIF, or of a result. *)
Definition wants (e : ierr) : Prop := In e [IE_InvalidStack; IE_InvalidAltStack; IE_Unbalanced; IE_EvalFalseNoResult].

(** RETURN, the disabled, reserved and unknown opcodes. *)
Definition never (z : Z) : Prop :=
  In z [80; 98; 101; 102; 106; 126; 127; 128; 129; 131; 132; 133; 134; 137; 138; 141; 142; 149; 150; 151; 152; 153] \/ 186 <= z.

(** [sized l n a m b]: on stacks of [n] and [a] items, the script [l] leaves stacks of [m] and
    [b] items, by counting only. *)
Inductive sized : list instr -> Z -> Z -> Z -> Z -> Prop :=
  | Sized_end n a : sized [] n a n a
  | Sized_op i l n a m b x y dx dy : effect (bZ (i_op i)) = Some (x, y, dx, dy) -> x <= n -> y <= a ->
      sized l (n + dx) (a + dy) m b -> sized (i :: l) n a m b
  | Sized_never i l n a n' a' m b : never (bZ (i_op i)) -> sized l n' a' m b -> sized (i :: l) n a m b
  | Sized_if i p e l n a m b : bZ (i_op i) = 99 \/ bZ (i_op i) = 100 -> bZ (i_op e) = 104 -> 1 <= n ->
      sized p (n - 1) a (n - 1) a -> sized l (n - 1) a m b -> sized (i :: p ++ e :: l) n a m b
  | Sized_else i p o q e l n a k c m b : bZ (i_op i) = 99 \/ bZ (i_op i) = 100 -> bZ (i_op o) = 103 -> bZ (i_op e) = 104 -> 1 <= n ->
      sized p (n - 1) a k c -> sized q (n - 1) a k c -> sized l k c m b -> sized (i :: p ++ o :: q ++ e :: l) n a m b.

(** Every IF around the next instruction was taken. *)
Definition executed (st : interp) : Prop := Forall (fun v => v = true) (s_vf st).

(** Items that a sequence of opcodes without conditionals needs on one of the stacks. *)
Definition main_of (e : Z * Z * Z * Z) : Z * Z := let '(x, _, dx, _) := e in (x, dx).
Definition alt_of (e : Z * Z * Z * Z) : Z * Z := let '(_, y, _, dy) := e in (y, dy).
Fixpoint required (of : Z * Z * Z * Z -> Z * Z) (l : list Z) : Z :=
  match l with
  | [] => 0
  | z :: r => match effect z with Some e => Z.max (fst (of e)) (required of r - snd (of e)) | None => 0 end
  end.
(** Only opcodes of the table. *)
Definition straight (l : list instr) : Prop := Forall (fun i => effect (bZ (i_op i)) <> None) l.
(** Only data pushes and numbers. *)
Definition pushes (l : list instr) : Prop := Forall (fun i => effect (bZ (i_op i)) = Some (0, 0, 1, 0) /\ bZ (i_op i) <= 96) l.
Definition ops_of (l : list instr) : list Z := map (fun i => bZ (i_op i)) l.
