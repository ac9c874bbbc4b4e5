(** Specifications for the script interpreter. *)
From Verif Require Import Base M_Hash S_Codec M_Keys M_Script S_Script M_Interp.
Open Scope Z_scope.

(** ** Values *)

(** An element counts as true for this interpreter: first byte non-zero, and not the single
    byte 0x80. *)
Definition true_item (p : pyb) : Prop :=
  exists c r, pyb_bytes p = c :: r /\ bZ c <> 0 /\ ~ (bZ c = 128 /\ r = []).
(** Bitcoin's rule: some byte is non-zero, other than a final 0x80. *)
Definition bitcoin_true (l : bytes) : Prop :=
  exists a c r, l = a ++ c :: r /\ bZ c <> 0 /\ ~ (bZ c = 128 /\ r = []).

(** [p] is the shortest encoding, as a bytearray, of the number [n]. *)
Definition number_item (p : pyb) (n : Z) : Prop := exists l, p = BA l /\ sm_val l = n /\ sm_shortest l.
(** [p] may be used as the numeric operand [n]: a bytearray of at most 3 bytes (or an empty
    string); with the minimal-data flag it must also be the shortest encoding. *)
Definition operand (minimal : bool) (p : pyb) (n : Z) : Prop :=
  (exists l, p = BA l /\ blen l <= 3 /\ sm_val l = n /\ (minimal = true -> sm_shortest l)) \/ (p = Str [] /\ n = 0).

(** ** States *)

Definition flag (n k : Z) : Prop := Z.testbit n k = true.
(** bit numbers of the flags *)
Definition P2SH := 0.
Definition NULLDUMMY := 4.
Definition SIGPUSHONLY := 5.
Definition MINIMALDATA := 6.
Definition DISCOURAGE := 7.
Definition minimal_of (st : interp) : bool := Z.testbit (s_flags st) MINIMALDATA.

(** No enclosing condition is false. *)
Definition executing (st : interp) : Prop := ~ In false (s_vf st).
(** Another counted operation is allowed. *)
Definition room (st : interp) : Prop := s_nop st < 201.
Definition plain (z : Z) (i : instr) : Prop := bZ (i_op i) = z /\ i_data i = None.

(** After one counted operation: the stacks given, everything else unchanged. *)
Definition counted (st : interp) (stack alt : list pyb) : interp :=
  Interp stack alt (s_pc st + 1) (s_begin st) (s_nop st + 1) (s_vf st) (s_errstr st) (s_flags st) (s_script st).
(** After one operation up to OP_16, which does not count. *)
Definition uncounted (st : interp) (stack : list pyb) : interp :=
  Interp stack (s_alt st) (s_pc st + 1) (s_begin st) (s_nop st) (s_vf st) (s_errstr st) (s_flags st) (s_script st).

(** ** Stack words, in the usual notation: number of arguments, and the results as positions
    among them (0 is the deepest). *)
Definition stack_words : list (Z * (nat * list nat)) := [
  (109%Z, (2, []));                    (* 2DROP  x0 x1 --                         *)
  (110%Z, (2, [0; 1; 0; 1]));          (* 2DUP   x0 x1 -- x0 x1 x0 x1             *)
  (111%Z, (3, [0; 1; 2; 0; 1; 2]));    (* 3DUP                                    *)
  (112%Z, (4, [0; 1; 2; 3; 0; 1]));    (* 2OVER  x0 x1 x2 x3 -- x0 x1 x2 x3 x0 x1 *)
  (113%Z, (6, [2; 3; 4; 5; 0; 1]));    (* 2ROT                                    *)
  (114%Z, (4, [2; 3; 0; 1]));          (* 2SWAP                                   *)
  (118%Z, (1, [0; 0]));                (* DUP                                     *)
  (119%Z, (2, [1]));                   (* NIP                                     *)
  (120%Z, (2, [0; 1; 0]));             (* OVER                                    *)
  (123%Z, (3, [1; 2; 0]));             (* ROT                                     *)
  (124%Z, (2, [1; 0]));                (* SWAP                                    *)
  (125%Z, (2, [1; 0; 1]))]%nat.        (* TUCK                                    *)
Definition pick {A} (args : list A) (ks : list nat) (out : list A) : Prop :=
  Forall2 (fun k x => nth_error args k = Some x) ks out.

(** Items needed by the other opcodes: IFDUP SIZE TOALTSTACK EQUAL EQUALVERIFY VERIFY DROP
    PICK ROLL *)
Definition needs : list (Z * Z) :=
  [(115, 1); (130, 1); (107, 1); (135, 2); (136, 2); (105, 1); (117, 1); (121, 2); (122, 2)].

(** ** Arithmetic *)
Definition of_bool (P : Prop) (n : Z) : Prop := (P /\ n = 1) \/ (~ P /\ n = 0).
Inductive unary_op : Z -> Z -> Z -> Prop :=
  | u_1add n : unary_op 139 n (n + 1)
  | u_1sub n : unary_op 140 n (n - 1)
  | u_negate n : unary_op 143 n (- n)
  | u_not n r : of_bool (n = 0) r -> unary_op 145 n r
  | u_0notequal n r : of_bool (n <> 0) r -> unary_op 146 n r.
Inductive binary_op : Z -> Z -> Z -> Z -> Prop :=
  | b_add a b : binary_op 147 a b (a + b)
  | b_sub a b : binary_op 148 a b (a - b)
  | b_booland a b r : of_bool (a <> 0 /\ b <> 0) r -> binary_op 154 a b r
  | b_boolor a b r : of_bool (a <> 0 \/ b <> 0) r -> binary_op 155 a b r
  | b_numequal a b r : of_bool (a = b) r -> binary_op 156 a b r
  | b_numnotequal a b r : of_bool (a <> b) r -> binary_op 158 a b r
  | b_less a b r : of_bool (a < b) r -> binary_op 159 a b r
  | b_greater a b r : of_bool (a > b) r -> binary_op 160 a b r
  | b_lesseq a b r : of_bool (a <= b) r -> binary_op 161 a b r
  | b_greatereq a b r : of_bool (a >= b) r -> binary_op 162 a b r
  | b_min a b r : (r = a \/ r = b) -> r <= a -> r <= b -> binary_op 163 a b r
  | b_max a b r : (r = a \/ r = b) -> a <= r -> b <= r -> binary_op 164 a b r.

(** Opcodes taking one number and opcodes taking two *)
Definition unaries := [139; 140; 143; 144; 145; 146].
Definition binaries := [147; 148; 154; 155; 156; 157; 158; 159; 160; 161; 162; 163; 164].

(** ** Balanced conditionals, as a grammar over opcode numbers.
    block ::= (other | IF body ENDIF)*      body ::= block (ELSE block)* *)
Definition conditional (z : Z) : Prop := z = 99 \/ z = 100 \/ z = 103 \/ z = 104.
Inductive block : list Z -> Prop :=
  | bl_nil : block []
  | bl_op z r : ~ conditional z -> block r -> block (z :: r)
  | bl_if z b r : z = 99 \/ z = 100 -> body b -> block r -> block (z :: b ++ 104 :: r)
with body : list Z -> Prop :=
  | bd_one b : block b -> body b
  | bd_else a b : body a -> block b -> body (a ++ 103 :: b).
Definition ops (l : list instr) : list Z := map (fun i => bZ (i_op i)) l.

(** ** Classes of opcodes *)
(** CAT SUBSTR LEFT RIGHT, INVERT AND OR XOR, 2MUL 2DIV, MUL DIV MOD LSHIFT RSHIFT *)
Definition disabled (z : Z) : Prop := 126 <= z <= 129 \/ 131 <= z <= 134 \/ 141 <= z <= 142 \/ 149 <= z <= 153.
(** HASH160, CHECKSIG, CHECKSIGVERIFY, CHECKLOCKTIMEVERIFY *)
Definition hopeless (z : Z) : Prop := z = 169 \/ z = 172 \/ z = 173 \/ z = 177.
Definition straight_line (l : list instr) : Prop := Forall (fun i => bZ (i_op i) <> 99 /\ bZ (i_op i) <> 100) l.

Definition small_item (p : pyb) : Prop := pyb_len p <= 520.

(** ** Whole scripts *)
(** A state ready to run [s] on a given stack. *)
Definition ready (s : script) (stack : list pyb) (flags : Z) : interp := Interp stack [] 0 0 0 [] IE_None flags s.

(** ** Unexecuted branches *)
Definition long_push (i : instr) : Prop := exists d, i_data i = Some d /\ 520 < pyb_len d.
(** Passing over an instruction. *)
Definition skipped (st : interp) (i : instr) : interp :=
  Interp (s_stack st) (s_alt st) (s_pc st + 1) (s_begin st) (if bZ (i_op i) <=? 96 then s_nop st else s_nop st + 1)
         (s_vf st) (s_errstr st) (s_flags st) (s_script st).

(** ** Limits *)
Definition small_items (st : interp) : Prop := Forall small_item (s_stack st) /\ Forall small_item (s_alt st).
Definition items (st : interp) : Z := blen (s_stack st) + blen (s_alt st).
Definition counted_ops (l : list instr) : Z := blen (filter (fun i => 97 <=? bZ (i_op i)) l).
(** [st1] is reached while evaluating the script of [st] (not yet failed). *)
Definition reaches (st st1 : interp) (l1 : list instr) : Prop :=
  exists b l2, script_to_bytes (s_script st) = Ok b /\ blen b <= 10000 /\ s_ins (s_script st) = l1 ++ l2 /\ run l1 st = Ok (Next st1).

(** ** Flags that are looked at anywhere: P2SH, NULLDUMMY, SIGPUSHONLY, MINIMALDATA,
    DISCOURAGE_NOPS, CHECKLOCKTIMEVERIFY *)
Definition used_flags : list Z := [0; 4; 5; 6; 7; 9].

(** ** Hash locks *)
Definition hash_op (z : Z) (f : bytes -> bytes) : Prop :=
  (z = 166 /\ f = ripemd160) \/ (z = 167 /\ f = sha1) \/ (z = 168 /\ f = sha256) \/ (z = 170 /\ f = fun x => sha256 (sha256 x)).
(** An instruction pushing [d] directly, 1 to 75 bytes. *)
Definition pushes_data (i : instr) (d : pyb) : Prop := i_data i = Some d /\ 1 <= bZ (i_op i) <= 75 /\ pyb_len d = bZ (i_op i).

(** ** CHECKMULTISIG: counts itself and the keys *)
Definition multisig_done (st : interp) (keys : Z) (stack : list pyb) : interp :=
  Interp stack (s_alt st) (s_pc st + 1) (s_begin st) (s_nop st + 1 + keys) (s_vf st) (s_errstr st) (s_flags st) (s_script st).

(** Two flag words agree on the flags in use. *)
Definition agree (f g : Z) : Prop := forall k, In k used_flags -> Z.testbit f k = Z.testbit g k.

(** ** Conditionals *)
(** After one IF, NOTIF, ELSE or ENDIF: the stack and the enclosing conditions given. *)
Definition branched (st : interp) (stack : list pyb) (vf : list bool) : interp :=
  Interp stack (s_alt st) (s_pc st + 1) (s_begin st) (s_nop st + 1) vf (s_errstr st) (s_flags st) (s_script st).
(** After passing over a list of instructions. *)
Definition passed (st : interp) (l : list instr) : interp :=
  Interp (s_stack st) (s_alt st) (s_pc st + blen l) (s_begin st) (s_nop st + counted_ops l) (s_vf st) (s_errstr st) (s_flags st)
         (s_script st).
(** Instructions that may be passed over: not VERIF, VERNOTIF or disabled, no oversized data. *)
Definition passable (i : instr) : Prop := bZ (i_op i) <> 101 /\ bZ (i_op i) <> 102 /\ ~ disabled (bZ (i_op i)) /\ ~ long_push i.

(** Opcodes that are no operation at all: RESERVED VER VERIF VERNOTIF RESERVED1 RESERVED2 and
    everything above NOP10 *)
Definition reserved (z : Z) : Prop := z = 80 \/ z = 98 \/ z = 101 \/ z = 102 \/ z = 137 \/ z = 138 \/ 186 <= z.
