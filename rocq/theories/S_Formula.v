(** Formulas over the items on the stack, what they mean, and the scripts that compute them
    (specification).  Written for both languages compared in C96, independently of the
    interpreter. *)
From Verif Require Import Base S_Codec M_Keys M_Script M_Interp S_Interp S_Ref.
Open Scope Z_scope.

Inductive unop := U_inc | U_dec | U_neg | U_not | U_nonzero.
Inductive binop := B_add | B_sub | B_and | B_or | B_eq | B_neq | B_lt | B_gt | B_le | B_ge | B_min | B_max.
(** A constant, the [k]-th item from the top read as a number, operators, lo <= x < hi, and a
    choice. *)
Inductive formula :=
  | F_num (n : Z) | F_arg (k : nat) | F_un (u : unop) (x : formula) | F_bin (b : binop) (x y : formula)
  | F_within (x lo hi : formula) | F_if (c x y : formula).

(** ** Meaning *)
Definition as01 (b : bool) : Z := if b then 1 else 0.
Definition un_val (u : unop) (n : Z) : Z :=
  match u with U_inc => n + 1 | U_dec => n - 1 | U_neg => - n | U_not => as01 (n =? 0) | U_nonzero => as01 (negb (n =? 0)) end.
Definition bin_val (b : binop) (x y : Z) : Z :=
  match b with
  | B_add => x + y | B_sub => x - y | B_and => as01 (negb (x =? 0) && negb (y =? 0)) | B_or => as01 (negb (x =? 0) || negb (y =? 0))
  | B_eq => as01 (x =? y) | B_neq => as01 (negb (x =? y)) | B_lt => as01 (x <? y) | B_gt => as01 (x >? y)
  | B_le => as01 (x <=? y) | B_ge => as01 (x >=? y) | B_min => Z.min x y | B_max => Z.max x y
  end.
(** Operands of operators have at most [limit] bytes, one bit of them the sign. *)
Definition fit (limit : Z) (v : option Z) : option Z :=
  match v with Some n => if Z.abs n <? 2 ^ (8 * limit - 1) then Some n else None | None => None end.
(** An item as a number: at most [limit] bytes, without superfluous ones if [minimal]. *)
Definition item_number (limit : Z) (minimal : bool) (x : bytes) : option Z :=
  if (blen x <=? limit) && (negb minimal || is_shortest x) then Some (sm_val x) else None.
(** The value of a formula; none if an item is missing or a number too long. *)
Fixpoint value (limit : Z) (minimal : bool) (items : list bytes) (f : formula) : option Z :=
  let arg g := fit limit (value limit minimal items g) in
  match f with
  | F_num n => Some n
  | F_arg k => match nth_error items k with Some x => item_number limit minimal x | None => None end
  | F_un u x => match arg x with Some a => Some (un_val u a) | None => None end
  | F_bin b x y => match arg x, arg y with Some a, Some c => Some (bin_val b a c) | _, _ => None end
  | F_within x lo hi => match arg x, arg lo, arg hi with Some a, Some l, Some h => Some (as01 ((l <=? a) && (a <? h))) | _, _, _ => None end
  | F_if c x y => match arg c with Some a => if a =? 0 then value limit minimal items y else value limit minimal items x | None => None end
  end.

(** ** Scripts *)
Definition un_code (u : unop) : opcode := match u with U_inc => x8b | U_dec => x8c | U_neg => x8f | U_not => x91 | U_nonzero => x92 end.
Definition bin_code (b : binop) : opcode :=
  match b with
  | B_add => x93 | B_sub => x94 | B_and => x9a | B_or => x9b | B_eq => x9c | B_neq => x9e | B_lt => x9f | B_gt => xa0
  | B_le => xa1 | B_ge => xa2 | B_min => xa3 | B_max => xa4
  end.
Definition word (o : opcode) : instr := Instr o None.
(** The shortest push of a number: 0, 1NEGATE, 1 to 16, or its bytes. *)
Definition push_number (n : Z) : instr :=
  if n =? 0 then word x00 else if n =? -1 then word x4f else if (1 <=? n) && (n <=? 16) then word (Zb (80 + n))
  else Instr (Zb (blen (script_num n))) (Some (BA (script_num n))).
(** [d]: how many intermediate results lie above the arguments.  PICK NEGATE NEGATE; 0NOTEQUAL
    IF .. ELSE .. ENDIF. *)
Fixpoint compile (d : nat) (f : formula) : list instr :=
  match f with
  | F_num n => [push_number n]
  | F_arg k => [push_number (Z.of_nat (d + k)); word x79; word x8f; word x8f]
  | F_un u x => compile d x ++ [word (un_code u)]
  | F_bin b x y => compile d x ++ compile (S d) y ++ [word (bin_code b)]
  | F_within x lo hi => compile d x ++ compile (S d) lo ++ compile (S (S d)) hi ++ [word xa5]
  | F_if c x y => compile d c ++ [word x92; word x63] ++ compile d x ++ [word x67] ++ compile d y ++ [word x68]
  end.
(** The script that demands that a formula is not zero. *)
Definition demand (f : formula) : script := Script None (compile 0 (F_un U_nonzero f)).
(** Pushes items of 1 to 75 bytes, the last one on top. *)
Definition supply (xs : list bytes) : script := Script None (map (fun x => Instr (Zb (blen x)) (Some (BA x))) xs).

(** ** Sizes *)
(** Operations, counted whether executed or not. *)
Fixpoint operations (f : formula) : Z :=
  match f with
  | F_num _ => 0 | F_arg _ => 3 | F_un _ x => operations x + 1 | F_bin _ x y => operations x + operations y + 1
  | F_within x lo hi => operations x + operations lo + operations hi + 1 | F_if c x y => operations c + operations x + operations y + 4
  end.
(** Stack items needed on the way. *)
Fixpoint cells (f : formula) : Z :=
  match f with
  | F_num _ | F_arg _ => 1 | F_un _ x => cells x | F_bin _ x y => Z.max (cells x) (1 + cells y)
  | F_within x lo hi => Z.max (cells x) (Z.max (1 + cells lo) (2 + cells hi)) | F_if c x y => Z.max (cells c) (Z.max (cells x) (cells y))
  end.
(** Constants have at most 4 bytes; items are counted up to 1000. *)
Fixpoint modest (f : formula) : Prop :=
  match f with
  | F_num n => Z.abs n < 2 ^ 31 | F_arg k => (k < 1000)%nat | F_un _ x => modest x | F_bin _ x y => modest x /\ modest y
  | F_within x y z | F_if x y z => modest x /\ modest y /\ modest z
  end.
(** The top item is one of the given numbers. *)
Fixpoint one_of (ns : list Z) : formula :=
  match ns with [] => F_num 0 | n :: r => F_bin B_or (F_bin B_eq (F_arg 0) (F_num n)) (one_of r) end.
