(** Model of comparing and hashing the objects of the library with Python 2's [==], [!=], [<] ...
    and [hash]: the methods of bitforge/script/opcode.py and instruction.py, and what the
    named tuples of the other files inherit from [tuple]. *)
From Verif Require Import Base M_Hash M_Codec M_Keys M_EC M_Script M_Tx M_HD.
Open Scope Z_scope.

(** The classes derived from [tuple], each a named tuple: networks.py:12, script.py:14-262,
    input.py:14-172, output.py:10-101, transaction.py:11-16, privkey.py:27-31, pubkey.py:18-22,
    address.py:12-14, hdprivkey.py:24-28, hdpubkey.py:16-20.  [K_tuple] is [tuple] itself.
    Instruction has its own constructor of [pyv].  Simplification: the anonymous base of each
    class (BaseScript, ...) is left out. *)
Inductive tclass :=
  | K_tuple | K_Network | K_Script (c : option sclass) | K_Input (c : in_class) | K_Output (c : out_class)
  | K_Transaction | K_PrivateKey | K_PublicKey | K_Address | K_HDPrivateKey | K_HDPublicKey.

(** Python values that can sit in those tuples.  An Opcode is an object of its own: [addr] is
    its identity, [n] its number (opcode.py:184-188).  An Instruction (instruction.py:10-48) holds
    an Opcode and None or a byte string.  A text is the list of its code points. *)
Inductive pyv :=
  | VNone | VBool (b : bool) | VInteger (z : Z) | VString (t : list Z) | VBytes (p : pyb)
  | VOpcode (addr n : Z) | VInstr (addr n : Z) (d : option pyb) | VType (t : addr_type)
  | VTuple (c : tclass) (l : list pyv) | VList (l : list pyv).

Definition data_val (d : option pyb) : pyv := match d with None => VNone | Some p => VBytes p end.

(** Is the first class a proper subclass of the second (script.py:174-262, input.py:121-172,
    output.py:77-101; everything derives from [tuple])? *)
Definition strict_sub (c d : tclass) : bool :=
  match c, d with
  | K_tuple, _ => false
  | _, K_tuple => true
  | K_Script (Some _), K_Script None => true
  | K_Input C_AddressInput, K_Input C_Input => true
  | K_Input C_ScriptInput, K_Input C_Input => true
  | K_Input C_MultisigInput, K_Input C_Input => true
  | K_Input C_MultisigInput, K_Input C_ScriptInput => true
  | K_Output C_AddressOutput, K_Output C_Output => true
  | K_Output C_ScriptOutput, K_Output C_Output => true
  | K_Output C_MultisigOutput, K_Output C_Output => true
  | K_Output C_MultisigOutput, K_Output C_ScriptOutput => true
  | K_Output C_DataOutput, K_Output C_Output => true
  | _, _ => false
  end.

Fixpoint codes_eqb (a b : list Z) : bool :=
  match a, b with
  | [], [] => true
  | x :: a', y :: b' => (x =? y) && codes_eqb a' b'
  | _, _ => false
  end.
(** [str == unicode]: the [str] is decoded as ASCII; if that fails they differ *)
Definition str_text_eqb (s : bytes) (t : list Z) : bool :=
  forallb (fun b => bZ b <? 128) s && codes_eqb (map bZ s) t.

Definition type_eqb (a b : addr_type) : bool :=
  match a, b with T_PublicKey, T_PublicKey => true | T_Script, T_Script => true | _, _ => false end.
Definition int_of_bool (b : bool) : Z := if b then 1 else 0.

(** [==] of two values that are neither tuples, lists nor Instructions.  Opcodes: by number, and
    never equal to anything else (opcode.py:225-229).  A bytearray never equals a text; a bool is
    an int; the members of Address.Type are equal to themselves only. *)
Definition leaf_eqb (a b : pyv) : bool :=
  match a, b with
  | VNone, VNone => true
  | VBool x, VBool y => int_of_bool x =? int_of_bool y
  | VBool x, VInteger z => int_of_bool x =? z
  | VInteger z, VBool y => z =? int_of_bool y
  | VInteger x, VInteger y => x =? y
  | VString t, VString u => codes_eqb t u
  | VString t, VBytes (Str s) => str_text_eqb s t
  | VBytes (Str s), VString t => str_text_eqb s t
  | VBytes p, VBytes q => pyb_eqb p q
  | VOpcode _ n, VOpcode _ m => n =? m
  | VType s, VType t => type_eqb s t
  | _, _ => false
  end.

(** [self.data == other.data] of two Instructions *)
Definition data_eqb (d e : option pyb) : bool :=
  match d, e with None, None => true | Some p, Some q => pyb_eqb p q | _, _ => false end.

(** [v == instruction] for [v] not an Instruction.  If [v] is an Opcode its own method answers
    False.  If [v] is a plain tuple (a base class of Instruction) or has no [==] that accepts it,
    [Instruction.__eq__] (instruction.py:122-123) is called, and [v.opcode] is an AttributeError.
    Any other tuple class compares the two as tuples. *)
Definition item_eq_op (v : pyv) (n : Z) : res bool :=
  match v with VInstr _ _ _ => Err E_AttributeError | VOpcode _ m => Ok (m =? n) | _ => Ok false end.
Definition item_eq_data (v : pyv) (d : option pyb) : res bool :=
  match v with VInstr _ _ _ => Err E_AttributeError | _ => Ok (leaf_eqb v (data_val d)) end.
Definition other_eq_instr (v : pyv) (n : Z) (d : option pyb) : res bool :=
  match v with
  | VOpcode _ _ => Ok false
  | VTuple K_tuple _ => Err E_AttributeError
  | VTuple _ [] => Ok false
  | VTuple _ (x :: r) =>
      let! e := item_eq_op x n in
      if negb e then Ok false else
      match r with
      | [] => Ok false
      | y :: r' => let! e := item_eq_data y d in
                   Ok (e && match r' with [] => true | _ => false end)
      end
  | _ => Err E_AttributeError
  end.

(** [py_cmp false a b] is [a == b] and [py_cmp true a b] is [b == a] (one function, since
    comparing tuples of a class and a subclass turns the order round: Python 2 asks the more
    derived operand first).  Tuples are compared item by item up to the first difference, lists
    only if they are equally long.  Comparing an object with itself without calling [==] changes
    nothing, [==] being reflexive. *)
Fixpoint py_cmp (sw : bool) (a b : pyv) {struct a} : res bool :=
  let loop :=
    (fix loop (sw : bool) (l m : list pyv) {struct l} : res bool :=
       match l, m with
       | [], [] => Ok true
       | x :: l', y :: m' => let! e := py_cmp sw x y in if (e : bool) then loop sw l' m' else Ok false
       | _, _ => Ok false
       end) in
  match a, b with
  | VInstr _ n d, VInstr _ m e => Ok ((n =? m) && data_eqb d e)
  | VInstr _ n d, _ => if sw then other_eq_instr b n d else Err E_AttributeError
  | VOpcode _ _, VInstr _ _ _ => if sw then Err E_AttributeError else Ok false
  | VTuple c l, VInstr y m e =>
      if sw then Err E_AttributeError
      else match c with
           | K_tuple => Err E_AttributeError
           | _ => loop false l [VOpcode y m; data_val e]
           end
  | _, VInstr _ _ _ => Err E_AttributeError
  | VTuple c l, VTuple d m =>
      loop (if (if sw then strict_sub c d else strict_sub d c) then negb sw else sw) l m
  | VList l, VList m => if negb (blen l =? blen m) then Ok false else loop sw l m
  | _, _ => Ok (leaf_eqb a b)
  end.

(** [a == b] *)
Definition py_eq (a b : pyv) : res bool := py_cmp false a b.

(** The comparison of two tuples, item by item *)
Fixpoint items_cmp (sw : bool) (l m : list pyv) {struct l} : res bool :=
  match l, m with
  | [], [] => Ok true
  | x :: l', y :: m' => let! e := py_cmp sw x y in if (e : bool) then items_cmp sw l' m' else Ok false
  | _, _ => Ok false
  end.

(** The items of a tuple; an Instruction is the tuple (opcode, data). *)
Definition items (v : pyv) : option (list pyv) :=
  match v with
  | VTuple _ l => Some l
  | VInstr x n d => Some [VOpcode x n; data_val d]
  | _ => None
  end.
Definition sub_val (a b : pyv) : bool :=
  match a, b with
  | VTuple c _, VTuple d _ => strict_sub c d
  | VInstr _ _ _, VTuple K_tuple _ => true
  | _, _ => false
  end.

(** [a != b].  Opcode defines no [__ne__] (opcode.py:157-239), so two Opcodes differ iff they are
    different objects, and an Opcode differs from anything else.  Instruction inherits [!=] from
    [tuple] (instruction.py:13, 122). *)
Definition py_ne (a b : pyv) : res bool :=
  match a, b with
  | VOpcode x _, VOpcode y _ => Ok (negb (x =? y))
  | VOpcode _ _, _ => Ok true
  | _, VOpcode _ _ => Ok true
  | _, _ =>
      match items a, items b with
      | Some l, Some m => let! e := items_cmp (sub_val b a) l m in Ok (negb e)
      | Some _, None => Ok true
      | None, Some _ => Ok true
      | None, None => let! e := py_eq a b in Ok (negb e)
      end
  end.

(** Ordering an Opcode against any value: [__lt__] (opcode.py:231-235) and what
    [@total_ordering] (opcode.py:157) derives from it and [__eq__] in Python 2.7. *)
Definition op_lt (n : Z) (b : pyv) : bool := match b with VOpcode _ m => n <? m | _ => false end.
Definition op_eq (n : Z) (b : pyv) : bool := match b with VOpcode _ m => n =? m | _ => false end.
Definition op_gt (n : Z) (b : pyv) : bool := negb (op_lt n b || op_eq n b).
Definition op_le (n : Z) (b : pyv) : bool := op_lt n b || op_eq n b.
Definition op_ge (n : Z) (b : pyv) : bool := negb (op_lt n b).

(** The built-in hash functions; [hash_text] agrees with [hash_str] on ASCII. *)
Record hasher := Hasher {
  hash_none : Z; hash_int : Z -> Z; hash_text : list Z -> Z; hash_str : bytes -> Z;
  hash_type : addr_type -> Z; hash_items : list Z -> Z;
  hash_ascii : forall s, forallb (fun b => bZ b <? 128) s = true -> hash_text (map bZ s) = hash_str s }.

(** [hash(v)]: opcode.py:237-238 (the hash of the number), instruction.py:125-126 (that of the
    tuple), inherited from [tuple] otherwise; lists and bytearrays raise TypeError. *)
Fixpoint py_hash (h : hasher) (v : pyv) {struct v} : res Z :=
  match v with
  | VNone => Ok (hash_none h)
  | VBool b => Ok (hash_int h (int_of_bool b))
  | VInteger z => Ok (hash_int h z)
  | VString t => Ok (hash_text h t)
  | VBytes (Str s) => Ok (hash_str h s)
  | VBytes (BA _) => Err E_TypeError
  | VOpcode _ n => Ok (hash_int h n)
  | VInstr _ n d =>
      let! k := (match d with
                 | None => Ok (hash_none h)
                 | Some (Str s) => Ok (hash_str h s)
                 | Some (BA _) => Err E_TypeError
                 end) in
      Ok (hash_items h [hash_int h n; k])
  | VType t => Ok (hash_type h t)
  | VTuple _ l =>
      let! ks := (fix hashes (l : list pyv) : res (list Z) :=
                    match l with
                    | [] => Ok []
                    | x :: r => let! k := py_hash h x in let! ks := hashes r in Ok (k :: ks)
                    end) l in
      Ok (hash_items h ks)
  | VList _ => Err E_TypeError
  end.

(** ** The Python value of an object of the other model files.  A Script does not say which Opcode
    objects it holds, so these are relations: [v] is one of the values the object may be. *)

(** bitforge/networks.py:12-24; the names and seeds are texts *)
Definition text_val (b : bytes) : pyv := VString (map bZ b).
Definition network_val (n : network) : pyv :=
  VTuple K_Network
    [text_val (n_name n); VInteger (n_pubkeyhash n); VInteger (n_wif_prefix n); VInteger (n_scripthash n);
     VInteger (n_hd_public_key n); VInteger (n_hd_private_key n); VInteger (n_magic n); VInteger (n_port n);
     VList (map text_val (n_seeds n))].
(** bitforge/privkey.py:27-29, pubkey.py:18-20, address.py:12 *)
Definition privkey_val (k : privkey) : pyv :=
  VTuple K_PrivateKey [VInteger (k_secret k); network_val (k_network k); VBool (k_compressed k)].
Definition pubkey_val (k : pubkey) : pyv :=
  VTuple K_PublicKey
    [VTuple K_tuple [VInteger (fst (pk_pair k)); VInteger (snd (pk_pair k))]; network_val (pk_network k);
     VBool (pk_compressed k)].
Definition address_val (a : address) : pyv :=
  VTuple K_Address [VBytes (a_phash a); network_val (a_network a); VType (a_type a)].
(** bitforge/hdprivkey.py:24-26, hdpubkey.py:16-18 *)
Definition hdpriv_val (k : hdpriv) : pyv :=
  VTuple K_HDPrivateKey
    [privkey_val (hv_privkey k); VBytes (Str (hv_chain k)); VInteger (hv_depth k); VInteger (hv_index k);
     VInteger (hv_parent k); network_val (hv_network k); VInteger (hv_fingerprint k)].
Definition hdpub_val (k : hdpub) : pyv :=
  VTuple K_HDPublicKey
    [pubkey_val (hp_pubkey k); VBytes (Str (hp_chain k)); VInteger (hp_depth k); VInteger (hp_index k);
     VInteger (hp_parent k); network_val (hp_network k); VInteger (hp_fingerprint k)].

(** bitforge/script/instruction.py:10, script.py:14-16, 39-41 *)
Definition is_instr (v : pyv) (i : instr) : Prop := exists x, v = VInstr x (bZ (i_op i)) (i_data i).
Definition is_script (v : pyv) (s : script) : Prop :=
  exists l, v = VTuple (K_Script (s_class s)) [VTuple K_tuple l] /\ Forall2 is_instr l (s_ins s).
(** The id of an Input is a text or a [str] of hexadecimal digits; input.py:14-16 *)
Definition is_id (v : pyv) (b : bytes) : Prop := v = VString (map bZ b) \/ v = VBytes (Str b).
Definition is_input (v : pyv) (i : input) : Prop :=
  exists id s, v = VTuple (K_Input (in_class_of i)) [id; VInteger (in_index i); s; VInteger (in_seq i)]
               /\ is_id id (in_tx_id i) /\ is_script s (in_script i).
(** bitforge/transaction/output.py:10-12, transaction.py:11-13 *)
Definition is_output (v : pyv) (o : output) : Prop :=
  exists s, v = VTuple (K_Output (out_class_of o)) [VInteger (out_amount o); s] /\ is_script s (out_script o).
Definition is_tx (v : pyv) (t : tx) : Prop :=
  exists l m, v = VTuple K_Transaction [VTuple K_tuple l; VTuple K_tuple m; VInteger (tx_lock_time t);
                                        VInteger (tx_version t)]
              /\ Forall2 is_input l (tx_inputs t) /\ Forall2 is_output m (tx_outputs t).
