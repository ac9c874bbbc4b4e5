(** Spending policies: hash locks and conditions on numbers, joined by and and or; when given
    items satisfy them, what one has to know to satisfy them, and their scripts
    (specification). *)
From Verif Require Import Base M_Hash S_Codec M_Keys M_Script M_Interp S_Interp S_Ref S_Formula.
Open Scope Z_scope.

Inductive hash_kind := H_ripemd160 | H_sha1 | H_sha256 | H_hash256.
Definition hash_of (k : hash_kind) (x : bytes) : bytes :=
  match k with H_ripemd160 => ripemd160 x | H_sha1 => sha1 x | H_sha256 => sha256 x | H_hash256 => sha256 (sha256 x) end.
(** A leaf looks at one item: its hash is [h]; the formula, of that item alone, is not zero. *)
Inductive leaf := L_hash (k : hash_kind) (h : bytes) | L_number (f : formula).
Inductive policy := P_leaf (l : leaf) | P_and (p q : policy) | P_or (p q : policy).

(** ** Meaning *)
(** Does the item satisfy the leaf?  None: it is not a number in range. *)
Definition leaf_holds (limit : Z) (minimal : bool) (x : bytes) (l : leaf) : option bool :=
  match l with
  | L_hash k h => Some (bytes_eqb (hash_of k x) h)
  | L_number f => match fit limit (value limit minimal [x] f) with Some v => Some (negb (v =? 0)) | None => None end
  end.
(** Someone who knows certain items can satisfy the policy. *)
Fixpoint opens (limit : Z) (minimal : bool) (know : bytes -> Prop) (p : policy) : Prop :=
  match p with
  | P_leaf l => exists x, know x /\ leaf_holds limit minimal x l = Some true
  | P_and p q => opens limit minimal know p /\ opens limit minimal know q
  | P_or p q => opens limit minimal know p \/ opens limit minimal know q
  end.
(** Items, the first one on top of the stack: a leaf takes one, an or takes one to decide which
    side to satisfy.  Result: whether the policy is satisfied, and the items left over. *)
Fixpoint satisfy (true_item : bytes -> bool) (limit : Z) (minimal : bool) (p : policy) (s : list bytes) : option (bool * list bytes) :=
  match p with
  | P_leaf l => match s with x :: r => match leaf_holds limit minimal x l with Some b => Some (b, r) | None => None end | [] => None end
  | P_and p q => match satisfy true_item limit minimal p s with Some (true, r) => satisfy true_item limit minimal q r | _ => None end
  | P_or p q => match s with x :: r => satisfy true_item limit minimal (if true_item x then p else q) r | [] => None end
  end.

(** ** Scripts *)
Definition hash_code (k : hash_kind) : opcode := match k with H_ripemd160 => xa6 | H_sha1 => xa7 | H_sha256 => xa8 | H_hash256 => xaa end.
(** hash, push, EQUAL; the formula, 0NOTEQUAL, NIP *)
Definition leaf_code (l : leaf) : list instr :=
  match l with
  | L_hash k h => [word (hash_code k); Instr (Zb (blen h)) (Some (BA h)); word x87]
  | L_number f => compile 0 f ++ [word x92; word x77]
  end.
(** VERIFY between the parts of an and; IF ELSE ENDIF *)
Fixpoint policy_code (p : policy) : list instr :=
  match p with
  | P_leaf l => leaf_code l
  | P_and p q => policy_code p ++ [word x69] ++ policy_code q
  | P_or p q => [word x63] ++ policy_code p ++ [word x67] ++ policy_code q ++ [word x68]
  end.
Definition policy_script (p : policy) : script := Script None (policy_code p).

(** ** Sizes *)
(** The formula looks at no item but the top one. *)
Fixpoint only_top (f : formula) : Prop :=
  match f with
  | F_num _ => True | F_arg k => k = 0%nat | F_un _ x => only_top x | F_bin _ x y => only_top x /\ only_top y
  | F_within x y z | F_if x y z => only_top x /\ only_top y /\ only_top z
  end.
Definition leaf_ok (l : leaf) : Prop := match l with L_hash _ h => 2 <= blen h <= 75 | L_number f => modest f /\ only_top f end.
Fixpoint policy_ok (p : policy) : Prop := match p with P_leaf l => leaf_ok l | P_and p q | P_or p q => policy_ok p /\ policy_ok q end.
Definition leaf_operations (l : leaf) : Z := match l with L_hash _ _ => 2 | L_number f => operations f + 2 end.
Fixpoint policy_operations (p : policy) : Z :=
  match p with P_leaf l => leaf_operations l | P_and p q => policy_operations p + policy_operations q + 1 | P_or p q => policy_operations p + policy_operations q + 3 end.
Fixpoint policy_cells (p : policy) : Z :=
  match p with P_leaf (L_hash _ _) => 1 | P_leaf (L_number f) => cells f | P_and p q | P_or p q => Z.max (policy_cells p) (policy_cells q) end.
(** Leaves and ors: at most so many items are needed. *)
Fixpoint policy_items (p : policy) : Z := match p with P_leaf _ => 1 | P_and p q => policy_items p + policy_items q | P_or p q => 1 + policy_items p + policy_items q end.
