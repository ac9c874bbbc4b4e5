(** What the texts of M_Show should say. *)
From Coq Require Import String.
From Verif Require Import Base M_Keys M_EC M_Script M_Tx M_HD S_Codec S_Script M_Show.
Open Scope Z_scope.

(** ** Literals of Python: [lit q t b] - after an opening quote [q], the text [t] up to and
    including the closing quote denotes [b]. *)
Definition hex_is (c : byte) (v : Z) : Prop :=
  (48 <= bZ c <= 57 /\ v = bZ c - 48) \/ (97 <= bZ c <= 102 /\ v = bZ c - 87).
Inductive lit (q : byte) : bytes -> bytes -> Prop :=
  | L_end : lit q [q] []
  | L_char c t b : c <> q -> c <> x5c -> c <> x0a -> lit q t b -> lit q (c :: t) (c :: b)
  | L_mark c t b : c = x5c \/ c = x27 \/ c = x22 -> lit q t b -> lit q (x5c :: c :: t) (c :: b)
  | L_tab t b : lit q t b -> lit q (x5c :: x74 :: t) (x09 :: b)
  | L_newline t b : lit q t b -> lit q (x5c :: x6e :: t) (x0a :: b)
  | L_return t b : lit q t b -> lit q (x5c :: x72 :: t) (x0d :: b)
  | L_hex c d u v e t b : hex_is c u -> hex_is d v -> bZ e = 16 * u + v -> lit q t b ->
      lit q (x5c :: x78 :: c :: d :: t) (e :: b).
Definition literal (t b : bytes) : Prop := exists q r, (q = x27 \/ q = x22) /\ t = q :: r /\ lit q r b.

(** The expression that a string argument is shown as. *)
Inductive shown : arg -> bytes -> Prop :=
  | Shown_str b t : literal t b -> shown (A_str (Str b)) t
  | Shown_bytearray b t : literal t b -> shown (A_str (BA b)) (txt "bytearray(b" ++ t ++ txt ")")
  | Shown_text b t : literal t b -> shown (A_text b) (txt "u" ++ t).
Definition arg_length (a : arg) : Z :=
  match a with A_str (Str b) | A_str (BA b) | A_text b => Z.of_nat (List.length b) | _ => 0 end.
Definition is_string (a : arg) : Prop := match a with A_str _ | A_text _ => True | _ => False end.

(** Decimal numerals without superfluous zeros. *)
Definition natural (t : bytes) (n : Z) : Prop := decimal t n /\ (hd x00 t = x30 -> t = [x30]).
Definition numeral (t : bytes) (z : Z) : Prop :=
  natural t z \/ (z < 0 /\ exists u, t = x2d :: u /\ natural u (- z)).

Definition printable_ascii (t : bytes) : Prop := Forall (fun c => 32 <= bZ c < 127) t.
Definition ascii_text (t : bytes) : Prop := Forall (fun c => bZ c < 128) t.

(** ** What each message says, by the kind of its arguments *)

(** text before the string, text after it, and whether the length ends the message *)
Definition about_string (c : ecls) : option (string * string * bool) :=
  match c with
  | X_Encoding => Some ("The string ", " is not properly encoded", false)
  | X_Base58h => Some ("The string ", " is not valid base58/check", false)
  | X_Hex => Some ("The string ", " is not valid hexadecimal", false)
  | X_ScriptNumber => Some ("The script number ", " is too long", false)
  | X_MinimalScriptNumber => Some ("The script number ", " is not minimally encoded", false)
  | X_Priv_WifLength =>
      Some ("The PrivateKey WIF ", " should be 33 (uncompressed) or 34 (compressed) bytes long, not ", true)
  | X_Priv_CompressionByte =>
      Some ("The length of the PrivateKey WIF ", " suggests it's compressed, but it doesn't end in '\1'", false)
  | X_Priv_Base58h => Some ("The PrivateKey string ", " is not valid base58/check", false)
  | X_Priv_Hex => Some ("The PrivateKey string ", " is not valid hexadecimal", false)
  | X_Priv_BinaryLength => Some ("The PrivateKey's binary secret ", " should be 32 bytes long, not ", true)
  | X_Pub_Binary => Some ("The buffer ", " is not in any recognized format", false)
  | X_Pub_Hex => Some ("The PublicKey string ", " is not valid hexadecimal", false)
  | X_Addr_Base58h => Some ("The Address string ", " is not valid base58/check", false)
  | X_Addr_Hex => Some ("The Address string ", " is not valid hexadecimal", false)
  | X_Addr_HashLength => Some ("The address hash ", " should be 20 bytes long, not ", true)
  | X_Addr_BinaryLength => Some ("The binary address ", " should be 21 bytes long, not ", true)
  | X_Op_Name | X_Scr_OpcodeName => Some ("No known operation named ", "", false)
  | X_Scr_MissingPushArguments => Some ("Missing arguments for ", " operation", false)
  | X_Scr_PushSize => Some ("Push size must be a number, got ", "", false)
  | X_Scr_PushData => Some ("Push data must be hex encoded and start with 0x, got ", "", false)
  | _ => None
  end%string.
Definition about_number (c : ecls) : option (string * string) :=
  match c with
  | X_Priv_Secret => Some ("Invalid secret for PrivateKey: ", "")
  | X_Addr_Version => Some ("Failed to detect Address type and network from version number ", "")
  | X_Op_Number => Some ("No known operation numbered ", "")
  | X_Op_ConstPushLength => Some ("No constant push opcode can push ", " bytes (only [1-75])")
  | X_Op_PushLength => Some ("No Opcode can push ", " bytes")
  | X_Scr_PushDataLength => Some ("Push data length doesn't match push size, got ", "")
  | X_Out_TooMuchData => Some ("DataOutputs can carry at most 80 bytes, but ", " were passed in")
  | X_Tx_LockTime => Some ("Transaction lock_time must be between 0 and 4294967295 (2^32 - 1), not ", "")
  | _ => None
  end%string.
Definition about_network (c : ecls) : option string :=
  match c with
  | X_Network => Some "No network with an attribute '"
  | X_Priv_Network => Some "No network for PrivateKey with an attribute '"
  | X_Pub_Network => Some "No network for PublicKey with an attribute '"
  | X_Addr_Network => Some "No network for Address with an attribute '"
  | _ => None
  end%string.
Definition about_object (c : ecls) : option (string * string) :=
  match c with
  | X_Pub_Pair => Some ("The PublicKey pair ", " is invalid (not a point of the curve)")
  | X_Addr_Type => Some ("Address type ", " is not an instance of Address.Type")
  | X_Op_TypeError => Some ("Opcodes are initialized from numbers and names, got object ", "")
  | X_Ins_TypeError => Some ("Expected an Opcode, got ", "")
  | X_Ins_UnexpectedData => Some ("Instruction got data with opcode ", ", which does not push data")
  | X_Tx_NotAnInput | X_Tx_NotAnOutput => Some ("Transaction expected instances of Input, got ", " instead")
  | _ => None
  end%string.
Definition fixed_text (c : ecls) : option string :=
  match c with
  | X_In_SignatureMethod =>
      Some "This abstract Input doesn't know how to sign itself. You should use an Input subclass, such as AddressInput"
  | X_Tx_NoInputs => Some "No Inputs were given to create this Transaction"
  | X_Tx_NoOutputs => Some "No Outputs were given to create this Transaction"
  | _ => None
  end%string.
(** Classes without a docstring. *)
Definition undocumented (c : ecls) : Prop :=
  In c [X_Bitforge; X_Object; X_String; X_Number; X_KeyValue; X_Buffer; X_Priv; X_Pub; X_Addr; X_Op; X_Ins; X_Scr;
        X_In; X_Out; X_Tx].

(** ** Subclasses *)
Inductive is_a : ecls -> ecls -> Prop :=
  | Is_self c : is_a c c
  | Is_base c d e : In d (bases c) -> is_a d e -> is_a c e.
(** The class whose [Error] the class belongs to, for the classes nested in another one. *)
Definition nested_in (c : ecls) : option ecls :=
  match c with
  | X_InsufficientData => Some X_Buffer
  | X_Priv_Secret | X_Priv_Network | X_Priv_WifLength | X_Priv_CompressionByte | X_Priv_Base58h | X_Priv_Hex
  | X_Priv_BinaryLength => Some X_Priv
  | X_Pub_Pair | X_Pub_Network | X_Pub_Binary | X_Pub_Hex => Some X_Pub
  | X_Addr_Network | X_Addr_Version | X_Addr_Base58h | X_Addr_Hex | X_Addr_HashLength | X_Addr_BinaryLength
  | X_Addr_Type => Some X_Addr
  | X_Op_Name | X_Op_Number | X_Op_ConstPushLength | X_Op_PushLength | X_Op_TypeError | X_Op_WrongType => Some X_Op
  | X_Ins_TypeError | X_Ins_UnexpectedData | X_Ins_DataLength => Some X_Ins
  | X_Scr_MissingPushArguments | X_Scr_PushSize | X_Scr_PushData | X_Scr_PushDataLength | X_Scr_OpcodeName => Some X_Scr
  | X_In_SignatureMethod | X_In_SignatureCount => Some X_In
  | X_Out_TooMuchData => Some X_Out
  | X_Tx_NoInputs | X_Tx_NoOutputs | X_Tx_NotAnInput | X_Tx_NotAnOutput | X_Tx_LockTime => Some X_Tx
  | _ => None
  end.
(** How many arguments each class takes. *)
Definition arity (c : ecls) : nat :=
  match c with
  | X_Ins_DataLength => 3
  | X_InsufficientData | X_In_SignatureCount | X_KeyValue | X_Network | X_Priv_Network | X_Pub_Network | X_Addr_Network => 2
  | X_Bitforge | X_Buffer | X_Priv | X_Pub | X_Addr | X_Op | X_Ins | X_Scr | X_In | X_Out | X_Tx
  | X_In_SignatureMethod | X_Tx_NoInputs | X_Tx_NoOutputs => 0
  | _ => 1
  end%nat.

(** Arguments that turn into ASCII texts. *)
Definition ascii_arg (a : arg) : Prop :=
  match a with A_text t => ascii_text t | A_obj (Ok t) => ascii_text t | _ => True end.

(** ** What the objects look like *)
(** A name of an opcode. *)
Inductive spoken (o : opcode) : bytes -> Prop :=
  | Spoken_push n : 1 <= bZ o <= 75 -> natural n (bZ o) -> spoken o (txt "_PUSH_" ++ n ++ txt "_BYTES")
  | Spoken_name n : names_op n o -> spoken o n.
Inductive opcode_text (o : opcode) : bytes -> Prop :=
  | Opcode_push n : 1 <= bZ o <= 75 -> natural n (bZ o) -> opcode_text o (txt "<Opcode PUSH " ++ n ++ txt " BYTES>")
  | Opcode_named n name : names_op name o -> natural n (bZ o) -> opcode_text o (txt "<Opcode " ++ n ++ txt ": " ++ name ++ txt ">").
Inductive instr_text (i : instr) : bytes -> Prop :=
  | Instr_plain n : ~ pushes (i_op i) -> spoken (i_op i) n -> instr_text i (txt "<Instruction: " ++ n ++ txt ">")
  | Instr_push n d h : pushes (i_op i) -> spoken (i_op i) n -> i_data i = Some d -> hex_text h (pyb_bytes d) ->
      instr_text i (txt "<Instruction: " ++ n ++ txt " '" ++ h ++ txt "'>").
(** A tuple with the given elements. *)
Inductive commas : list bytes -> bytes -> Prop :=
  | Commas_one t : commas [t] t
  | Commas_more t ts u : commas ts u -> commas (t :: ts) (t ++ txt ", " ++ u).
Inductive tuple_text : list bytes -> bytes -> Prop :=
  | Tuple_none : tuple_text [] (txt "()")
  | Tuple_one t : tuple_text [t] (txt "(" ++ t ++ txt ",)")
  | Tuple_more t u ts r : commas (t :: u :: ts) r -> tuple_text (t :: u :: ts) (txt "(" ++ r ++ txt ")").
Definition script_text (s : script) (t : bytes) : Prop := exists l, Forall2 instr_text (s_ins s) l /\ tuple_text l t.
(** 64 hexadecimal digits of a number *)
Definition hex_number (h : bytes) (z : Z) : Prop := exists b, hex_text h b /\ List.length b = 32%nat /\ be_val b = z.
(** [u] occurs in [t] *)
Definition occurs (u t : bytes) : Prop := exists a b, t = a ++ u ++ b.

(** ** The way Python writes literals: [written p q t b] - [t] is the writing of [b] up to and
    including the closing quote [q], with the quote [p] marked. *)
Inductive written (p q : byte) : bytes -> bytes -> Prop :=
  | W_end : written p q [q] []
  | W_mark c t b : c = p \/ c = x5c -> written p q t b -> written p q (x5c :: c :: t) (c :: b)
  | W_tab t b : written p q t b -> written p q (x5c :: x74 :: t) (x09 :: b)
  | W_newline t b : written p q t b -> written p q (x5c :: x6e :: t) (x0a :: b)
  | W_return t b : written p q t b -> written p q (x5c :: x72 :: t) (x0d :: b)
  | W_hex c d u v e t b : bZ e < 32 \/ 127 <= bZ e -> ~ In (bZ e) [9; 10; 13] -> hex_is c u -> hex_is d v -> bZ e = 16 * u + v ->
      written p q t b -> written p q (x5c :: x78 :: c :: d :: t) (e :: b)
  | W_char c t b : c <> p -> c <> x5c -> 32 <= bZ c < 127 -> written p q t b -> written p q (c :: t) (c :: b).
(** double quotes exactly around texts with a single and no double quote *)
Definition chosen (q : byte) (b : bytes) : Prop := (q = x22 /\ In x27 b /\ ~ In x22 b) \/ (q = x27 /\ (~ In x27 b \/ In x22 b)).

(** ** Objects that can be shown *)
Definition wf_script (s : script) : Prop := Forall well_formed (s_ins s).
Definition wf_tx (t : tx) : Prop :=
  Forall (fun i => wf_script (in_script i)) (tx_inputs t) /\ Forall (fun o => wf_script (out_script o)) (tx_outputs t).
Definition shown_tx (t : tx) : Prop :=
  Forall (fun i => Forall printable (s_ins (in_script i))) (tx_inputs t) /\
  Forall (fun o => Forall printable (s_ins (out_script o))) (tx_outputs t).
Definition shown_obj (lg : Z -> bool) (id : bytes -> bytes) (other : bytes) (o : obj) : res bytes :=
  match o with O_In i => repr_input lg id i | O_Out x => repr_output lg x | O_Other => Ok other end.
Definition wf_obj (o : obj) : Prop :=
  match o with O_In i => wf_script (in_script i) | O_Out x => wf_script (out_script x) | O_Other => True end.

(** ** Named tuples *)
Definition record_text (name : string) (l : list (string * bytes)) (t : bytes) : Prop :=
  exists u, commas (map (fun f => txt (fst f) ++ txt "=" ++ snd f) l) u /\ t = txt name ++ txt "(" ++ u ++ txt ")".
Definition num_text (lg : Z -> bool) (z : Z) (t : bytes) : Prop :=
  exists n, numeral n z /\ t = n ++ (if lg z then txt "L" else []).
Definition unicode_text (b t : bytes) : Prop := exists r, literal r b /\ t = txt "u" ++ r.
Definition list_text (l : list bytes) (t : bytes) : Prop :=
  (l = [] /\ t = txt "[]") \/ exists u, commas l u /\ t = txt "[" ++ u ++ txt "]".
Definition network_text (lg : Z -> bool) (n : network) (t : bytes) : Prop :=
  exists a1 a2 a3 a4 a5 a6 a7 a8 l a9,
    unicode_text (n_name n) a1 /\ num_text lg (n_pubkeyhash n) a2 /\ num_text lg (n_wif_prefix n) a3 /\
    num_text lg (n_scripthash n) a4 /\ num_text lg (n_hd_public_key n) a5 /\ num_text lg (n_hd_private_key n) a6 /\
    num_text lg (n_magic n) a7 /\ num_text lg (n_port n) a8 /\ Forall2 unicode_text (n_seeds n) l /\ list_text l a9 /\
    record_text "Network" [("name", a1); ("pubkeyhash", a2); ("wif_prefix", a3); ("scripthash", a4); ("hd_public_key", a5);
      ("hd_private_key", a6); ("magic", a7); ("port", a8); ("seeds", a9)]%string t.
Definition output_text (lg : Z -> bool) (o : output) (t : bytes) : Prop :=
  exists a s, num_text lg (out_amount o) a /\ script_text (out_script o) s /\
    record_text "Output" [("amount", a); ("script", s)]%string t.
Definition input_text (lg : Z -> bool) (id : bytes -> bytes) (i : input) (t : bytes) : Prop :=
  exists a s b, num_text lg (in_index i) a /\ script_text (in_script i) s /\ num_text lg (in_seq i) b /\
    record_text "Input" [("tx_id", id (in_tx_id i)); ("txo_index", a); ("script", s); ("seq_number", b)]%string t.
Definition tx_text (lg : Z -> bool) (id : bytes -> bytes) (x : tx) (t : bytes) : Prop :=
  exists l a m b c d, Forall2 (input_text lg id) (tx_inputs x) l /\ tuple_text l a /\
    Forall2 (output_text lg) (tx_outputs x) m /\ tuple_text m b /\
    num_text lg (tx_lock_time x) c /\ num_text lg (tx_version x) d /\
    record_text "Transaction" [("inputs", a); ("outputs", b); ("lock_time", c); ("version", d)]%string t.
(** the tuple of an extended key: the key itself is shown as [k] *)
Definition hd_text (lg : Z -> bool) (name field : string) (k chain : bytes) (depth index parent : Z) (net : network) (fp : Z) (t : bytes) : Prop :=
  exists c d i p n f, literal c chain /\ num_text lg depth d /\ num_text lg index i /\ num_text lg parent p /\
    network_text lg net n /\ num_text lg fp f /\
    record_text name [(field, k); ("chain", c); ("depth", d); ("index", i); ("parent", p); ("network", n); ("fingerprint", f)]%string t.
