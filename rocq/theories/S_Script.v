(** Specifications for opcodes, instructions and scripts. *)
From Coq Require Import String.
From Verif Require Import Base S_Codec M_Keys M_Script.
Open Scope Z_scope.

(** ** Opcode names, as consecutive blocks of numbers (Bitcoin's assignment). *)
Definition name_blocks : list (Z * list string) := [
  (0, ["OP_0"]); (0, ["OP_FALSE"]); (81, ["OP_TRUE"]);
  (76, ["OP_PUSHDATA1"; "OP_PUSHDATA2"; "OP_PUSHDATA4"; "OP_1NEGATE"; "OP_RESERVED";
        "OP_1"; "OP_2"; "OP_3"; "OP_4"; "OP_5"; "OP_6"; "OP_7"; "OP_8"; "OP_9"; "OP_10"; "OP_11"; "OP_12";
        "OP_13"; "OP_14"; "OP_15"; "OP_16"; "OP_NOP"]);
  (99, ["OP_IF"; "OP_NOTIF"]);
  (103, ["OP_ELSE"; "OP_ENDIF"; "OP_VERIFY"; "OP_RETURN"; "OP_TOALTSTACK"; "OP_FROMALTSTACK"; "OP_2DROP";
         "OP_2DUP"; "OP_3DUP"; "OP_2OVER"; "OP_2ROT"; "OP_2SWAP"; "OP_IFDUP"; "OP_DEPTH"; "OP_DROP"; "OP_DUP";
         "OP_NIP"; "OP_OVER"; "OP_PICK"; "OP_ROLL"; "OP_ROT"; "OP_SWAP"; "OP_TUCK"; "OP_CAT"; "OP_SUBSTR";
         "OP_LEFT"; "OP_RIGHT"; "OP_SIZE"; "OP_INVERT"; "OP_AND"; "OP_OR"; "OP_XOR"; "OP_EQUAL";
         "OP_EQUALVERIFY"; "OP_RESERVED1"; "OP_RESERVED2"; "OP_1ADD"; "OP_1SUB"; "OP_2MUL"; "OP_2DIV";
         "OP_NEGATE"; "OP_ABS"; "OP_NOT"; "OP_0NOTEQUAL"; "OP_ADD"; "OP_SUB"; "OP_MUL"; "OP_DIV"; "OP_MOD";
         "OP_LSHIFT"; "OP_RSHIFT"; "OP_BOOLAND"; "OP_BOOLOR"; "OP_NUMEQUAL"; "OP_NUMEQUALVERIFY";
         "OP_NUMNOTEQUAL"; "OP_LESSTHAN"; "OP_GREATERTHAN"; "OP_LESSTHANOREQUAL"; "OP_GREATERTHANOREQUAL";
         "OP_MIN"; "OP_MAX"; "OP_WITHIN"; "OP_RIPEMD160"; "OP_SHA1"; "OP_SHA256"; "OP_HASH160"; "OP_HASH256";
         "OP_CODESEPARATOR"; "OP_CHECKSIG"; "OP_CHECKSIGVERIFY"; "OP_CHECKMULTISIG"; "OP_CHECKMULTISIGVERIFY";
         "OP_NOP1"; "OP_CHECKLOCKTIMEVERIFY"; "OP_NOP3"; "OP_NOP4"; "OP_NOP5"; "OP_NOP6"; "OP_NOP7"; "OP_NOP8";
         "OP_NOP9"; "OP_NOP10"]);
  (253, ["OP_PUBKEYHASH"; "OP_PUBKEY"; "OP_INVALIDOPCODE"])]%string.
Fixpoint number_from (z : Z) (l : list string) : list (bytes * Z) :=
  match l with [] => [] | s :: r => (txt s, z) :: number_from (z + 1) r end.
(** Every name with its number. *)
Definition named_ops : list (bytes * Z) := flat_map (fun b => number_from (fst b) (snd b)) name_blocks.
Definition names_op (name : bytes) (o : opcode) : Prop := In (name, bZ o) named_ops.
(** Opcodes with a name; pushes 1..75 are written by length instead. *)
Definition has_name (o : opcode) : Prop := exists name, names_op name o.

(** Small numbers: opcode number for 0..16. *)
Definition small_number (o : opcode) (n : Z) : Prop := (n = 0 /\ bZ o = 0) \/ (1 <= n <= 16 /\ bZ o = 80 + n).

(** ** Instructions *)

Definition pushes (o : opcode) : Prop := 1 <= bZ o <= 78.
Definition push_length (o : opcode) (n : Z) : Prop :=
  (1 <= bZ o <= 75 /\ n = bZ o) \/ (bZ o = 76 /\ 0 <= n <= 255) \/
  (bZ o = 77 /\ 0 <= n <= 65535) \/ (bZ o = 78 /\ 0 <= n <= 4294967295).
Definition well_formed (i : instr) : Prop :=
  match i_data i with None => ~ pushes (i_op i) | Some d => push_length (i_op i) (pyb_len d) end.
Definition pushdata (o : opcode) : Prop := 76 <= bZ o <= 78.

(** What [==] sees of an instruction: opcode number and data bytes. *)
Definition content (i : instr) : opcode * option bytes := (i_op i, option_map pyb_bytes (i_data i)).
Definition same_script (a b : script) : Prop := map content (s_ins a) = map content (s_ins b).

(** Data of the two Python byte-string types (or no data). *)
Definition data_ba (i : instr) : Prop := match i_data i with Some (Str _) => False | _ => True end.
Definition data_str (i : instr) : Prop := match i_data i with Some (BA _) => False | _ => True end.
(** Instructions whose opcode has a textual form. *)
Definition printable (i : instr) : Prop := 1 <= bZ (i_op i) <= 75 \/ has_name (i_op i).

(** ** Wire format *)
Definition length_width (o : opcode) (k : nat) : Prop :=
  (bZ o = 76 /\ k = 1%nat) \/ (bZ o = 77 /\ k = 2%nat) \/ (bZ o = 78 /\ k = 4%nat).
Inductive wire : opcode * option bytes -> bytes -> Prop :=
  | wire_plain o : ~ pushes o -> wire (o, None) [o]
  | wire_const o d : 1 <= bZ o <= 75 -> blen d = bZ o -> wire (o, Some d) (o :: d)
  | wire_var o k lb d : length_width o k -> List.length lb = k -> le_val lb = blen d ->
      wire (o, Some d) (o :: lb ++ d).
Inductive wire_script : list (opcode * option bytes) -> bytes -> Prop :=
  | ws_nil : wire_script [] []
  | ws_cons i w l r : wire i w -> wire_script l r -> wire_script (i :: l) (w ++ r).

(** ** Text format *)
Inductive decimal : bytes -> Z -> Prop :=
  | dec_one c : 48 <= bZ c <= 57 -> decimal [c] (bZ c - 48)
  | dec_snoc t v c : decimal t v -> 48 <= bZ c <= 57 -> decimal (t ++ [c]) (10 * v + (bZ c - 48)).
Definition hex_val (c : byte) : Z :=
  if bZ c <=? 57 then bZ c - 48 else if bZ c <=? 70 then bZ c - 55 else bZ c - 87.
Inductive hex_text : bytes -> bytes -> Prop :=
  | hex_nil : hex_text [] []
  | hex_cons a b x h d : is_hex a -> is_hex b -> bZ x = 16 * hex_val a + hex_val b ->
      hex_text h d -> hex_text (a :: b :: h) (x :: d).
Inductive tokens_of : list bytes -> list (opcode * option bytes) -> Prop :=
  | tk_nil : tokens_of [] []
  | tk_op name o r l : names_op name o -> ~ pushes o -> tokens_of r l ->
      tokens_of (name :: r) ((o, None) :: l)
  | tk_const t o h d r l : decimal t (bZ o) -> 1 <= bZ o <= 75 -> hex_text h d -> blen d = bZ o ->
      tokens_of r l -> tokens_of (t :: (txt "0x" ++ h) :: r) ((o, Some d) :: l)
  | tk_var name o t h d r l : names_op name o -> pushdata o -> decimal t (blen d) -> hex_text h d ->
      push_length o (blen d) ->
      tokens_of r l -> tokens_of (name :: t :: (txt "0x" ++ h) :: r) ((o, Some d) :: l).
(** Tokens separated by single spaces. *)
Fixpoint joined (ts : list bytes) : bytes :=
  match ts with [] => [] | [t] => t | t :: r => t ++ x20 :: joined r end.
Definition no_space (t : bytes) : Prop := ~ In x20 t.

(** ** Templates: the sequence of opcodes with every push abstracted. *)
Definition opc (z : Z) (i : instr) : Prop := bZ (i_op i) = z.
Definition is_a_push (i : instr) : Prop := pushes (i_op i).
Definition is_small (i : instr) : Prop := exists n, small_number (i_op i) n.
Inductive shape : sclass -> list instr -> Prop :=
  | sh_pk_in a b : is_a_push a -> is_a_push b -> shape PayToPubkeyIn [a; b]
  | sh_pk_out a b c d e : opc 118 a -> opc 169 b -> is_a_push c -> opc 136 d -> opc 172 e ->
      shape PayToPubkeyOut [a; b; c; d; e]
  | sh_s_in z a b l : opc 0 z -> is_a_push a -> is_a_push b -> Forall is_a_push l ->
      shape PayToScriptIn (z :: a :: b :: l)
  | sh_s_out a b c : opc 169 a -> is_a_push b -> opc 135 c -> shape PayToScriptOut [a; b; c]
  | sh_ret a b : opc 106 a -> is_a_push b -> shape OpReturnOut [a; b]
  | sh_multi m k l n c : is_small m -> is_a_push k -> Forall is_a_push l -> is_small n -> opc 174 c ->
      shape RedeemMultisig ((m :: k :: l) ++ [n; c]).
(** The scripts on which classification breaks down. *)
Definition breaks_classify (l : list instr) : Prop :=
  (exists a b m c d, l = (a :: b :: m) ++ [c; d] /\
     (is_a_push a \/ (is_small a /\ is_a_push c))) /\ ~ (exists k, shape k l).
