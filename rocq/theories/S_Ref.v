(** Reference semantics of Bitcoin script, written from the published rules and not from the
    interpreter: stacks are lists of byte strings with the top first, a script is a list of
    opcode numbers with optional data.  A dialect records the points on which the two languages
    compared here differ and the effect of the verification flags.  Left out: scripts that check
    signatures (CHECKSIG and CHECKSIGVERIFY fail, CHECKMULTISIG works for zero signatures), the
    second stage of P2SH, and CHECKLOCKTIMEVERIFY when its flag is set (it fails). *)
From Verif Require Import Base M_Hash S_Codec M_Keys M_Script S_Script M_Interp S_Interp.
Open Scope Z_scope.

(** ** Dialects *)
Record dialect := Dialect {
  d_true : bytes -> bool;                       (* which items count as true                       *)
  d_limit : Z;                                  (* longest numeric operand, in bytes               *)
  d_drop : list bytes -> option (list bytes);   (* DROP                                            *)
  d_abs : Z -> Z;                               (* ABS                                             *)
  d_hash160 : bool;                             (* HASH160 works                                   *)
  d_nop2 : bool;                                (* opcode 177 does nothing (rather than fail)      *)
  d_each : bool;                                (* 1000 items at most after every instruction      *)
  d_minimal : bool;                             (* numeric operands must be as short as possible   *)
  d_within : bool;                              (* ... those of WITHIN too                         *)
  d_push : Z -> bytes -> bool;                  (* which pushes are allowed (opcode and data)      *)
  d_dummy : bool;                               (* CHECKMULTISIG's extra item must be empty        *)
  d_nops : bool }.                              (* NOP1, NOP3 .. NOP10 fail                        *)

(** Some byte is not zero, a final 0x80 excepted. *)
Fixpoint bitcoin_bool (l : bytes) : bool :=
  match l with
  | [] => false
  | [c] => negb (bZ c =? 0) && negb (bZ c =? 128)
  | c :: r => negb (bZ c =? 0) || bitcoin_bool r
  end.
(** The first byte is not zero, and it is not the single byte 0x80. *)
Definition first_bool (l : bytes) : bool :=
  match l with
  | [] => false
  | [c] => negb (bZ c =? 0) && negb (bZ c =? 128)
  | c :: _ => negb (bZ c =? 0)
  end.

(** The shortest way to push an item, as required by MINIMALDATA. *)
Definition shortest_push (z : Z) (d : bytes) : bool :=
  match d with
  | [] => z =? 0
  | [c] => (z =? 1) && negb ((1 <=? bZ c) && (bZ c <=? 16) || (bZ c =? 129))
  | _ => if blen d <=? 75 then z =? blen d else if blen d <=? 255 then z =? 76 else if blen d <=? 65535 then z =? 77 else true
  end.
(** What the interpreter lets pass instead: nothing of 1 to 75 bytes. *)
Definition empty_or_long_push (z : Z) (d : bytes) : bool :=
  if blen d =? 0 then true else if blen d <=? 75 then false else if blen d <=? 255 then z =? 76 else if blen d <=? 65535 then z =? 77 else true.

Definition CLTV := 9.
(** Bitcoin with the verification flags [f]. *)
Definition bitcoin (f : Z) : dialect := {|
  d_true := bitcoin_bool; d_limit := 4;
  d_drop := fun s => match s with _ :: r => Some r | [] => None end;
  d_abs := Z.abs; d_hash160 := true; d_nop2 := negb (Z.testbit f CLTV) && negb (Z.testbit f DISCOURAGE); d_each := true;
  d_minimal := Z.testbit f MINIMALDATA; d_within := true;
  d_push := if Z.testbit f MINIMALDATA then shortest_push else fun _ _ => true;
  d_dummy := Z.testbit f NULLDUMMY; d_nops := Z.testbit f DISCOURAGE |}.
(** What the interpreter runs. *)
Definition bitforge (f : Z) : dialect := {|
  d_true := first_bool; d_limit := 3;
  d_drop := fun s => match s with _ :: _ :: r => Some r | [_] => Some [] | [] => None end;
  d_abs := fun _ => 1; d_hash160 := false; d_nop2 := false; d_each := false;
  d_minimal := Z.testbit f MINIMALDATA; d_within := false;
  d_push := if Z.testbit f MINIMALDATA then empty_or_long_push else fun _ _ => true;
  d_dummy := Z.testbit f NULLDUMMY; d_nops := Z.testbit f DISCOURAGE |}.

(** ** Numbers *)
(** Base-256 digits of |n|, least significant first; none for 0. *)
Definition magnitude (n : Z) : bytes :=
  if n =? 0 then []
  else map (fun i => Zb (Z.abs n / 256 ^ Z.of_nat i mod 256)) (seq 0 (Z.to_nat (Z.log2 (Z.abs n) / 8 + 1))).
(** The sign goes to the top bit, in a byte of its own when that bit is taken. *)
Definition script_num (n : Z) : bytes :=
  match rev (magnitude n) with
  | [] => []
  | top :: r =>
      let sign := if n <? 0 then 128 else 0 in
      if bZ top <? 128 then rev (Zb (bZ top + sign) :: r) else rev (Zb sign :: top :: r)
  end.
(** It is the script number of its value. *)
Definition is_shortest (l : bytes) : bool := bytes_eqb l (script_num (sm_val l)).
Definition operand_with (D : dialect) (minimal : bool) (l : bytes) : option Z :=
  if (blen l <=? d_limit D) && (negb minimal || is_shortest l) then Some (sm_val l) else None.
Definition operand_of (D : dialect) (l : bytes) : option Z := operand_with D (d_minimal D) l.
Definition truth (b : bool) : Z := if b then 1 else 0.

(** ** Instructions that are executed *)
Definition need1 {B} (s : list bytes) (f : bytes -> list bytes -> option B) : option B :=
  match s with x :: r => f x r | _ => None end.
Definition need2 {B} (s : list bytes) (f : bytes -> bytes -> list bytes -> option B) : option B :=
  match s with x :: y :: r => f x y r | _ => None end.
Definition need3 {B} (s : list bytes) (f : bytes -> bytes -> bytes -> list bytes -> option B) : option B :=
  match s with x :: y :: z :: r => f x y z r | _ => None end.
Definition need4 {B} (s : list bytes) (f : bytes -> bytes -> bytes -> bytes -> list bytes -> option B) : option B :=
  match s with x :: y :: z :: t :: r => f x y z t r | _ => None end.
Definition need6 {B} (s : list bytes) (f : bytes -> bytes -> bytes -> bytes -> bytes -> bytes -> list bytes -> option B) : option B :=
  match s with x :: y :: z :: t :: u :: v :: r => f x y z t u v r | _ => None end.

Definition num1 (D : dialect) (s : list bytes) (f : Z -> Z) : option (list bytes) :=
  need1 s (fun x r => match operand_of D x with Some n => Some (script_num (f n) :: r) | None => None end).
(** the top item is the second operand *)
Definition num2 (D : dialect) (s : list bytes) (f : Z -> Z -> Z) : option (list bytes) :=
  need2 s (fun y x r => match operand_of D x, operand_of D y with
                        | Some a, Some b => Some (script_num (f a b) :: r) | _, _ => None end).
Definition hashed (s : list bytes) (f : bytes -> bytes) : option (list bytes) := need1 s (fun x r => Some (f x :: r)).

(** Opcodes acting on the main stack only. *)
Definition ref_word (D : dialect) (z : Z) (s : list bytes) : option (list bytes) :=
  match z with
  | 79 => Some (script_num (-1) :: s)
  | 81 | 82 | 83 | 84 | 85 | 86 | 87 | 88 | 89 | 90 | 91 | 92 | 93 | 94 | 95 | 96 => Some (script_num (z - 80) :: s)
  | 97 => Some s
  | 176 | 178 | 179 | 180 | 181 | 182 | 183 | 184 | 185 => if d_nops D then None else Some s
  | 177 => if d_nop2 D then Some s else None
  | 105 => need1 s (fun x r => if d_true D x then Some r else None)
  | 109 => need2 s (fun _ _ r => Some r)
  | 110 => need2 s (fun b a _ => Some (b :: a :: s))
  | 111 => need3 s (fun c b a _ => Some (c :: b :: a :: s))
  | 112 => need4 s (fun _ _ b a _ => Some (b :: a :: s))
  | 113 => need6 s (fun f e d c b a r => Some (b :: a :: f :: e :: d :: c :: r))
  | 114 => need4 s (fun d c b a r => Some (b :: a :: d :: c :: r))
  | 115 => need1 s (fun x _ => Some (if d_true D x then x :: s else s))
  | 116 => Some (script_num (blen s) :: s)
  | 117 => d_drop D s
  | 118 => need1 s (fun x _ => Some (x :: s))
  | 119 => need2 s (fun b _ r => Some (b :: r))
  | 120 => need2 s (fun _ a _ => Some (a :: s))
  | 121 => need2 s (fun n _ _ => match operand_of D n with
             | Some n => if n <? 0 then None else
                         match nth_error (tl s) (Z.to_nat n) with Some x => Some (x :: tl s) | None => None end
             | None => None end)
  | 122 => need2 s (fun n _ _ => match operand_of D n with
             | Some n => if n <? 0 then None else
                         match nth_error (tl s) (Z.to_nat n) with
                         | Some x => Some (x :: firstn (Z.to_nat n) (tl s) ++ skipn (S (Z.to_nat n)) (tl s))
                         | None => None end
             | None => None end)
  | 123 => need3 s (fun c b a r => Some (a :: c :: b :: r))
  | 124 => need2 s (fun b a r => Some (a :: b :: r))
  | 125 => need2 s (fun b a r => Some (b :: a :: b :: r))
  | 130 => need1 s (fun x _ => Some (script_num (blen x) :: s))
  | 135 => need2 s (fun b a r => Some (script_num (truth (bytes_eqb a b)) :: r))
  | 136 => need2 s (fun b a r => if bytes_eqb a b then Some r else None)
  | 139 => num1 D s (fun n => n + 1)
  | 140 => num1 D s (fun n => n - 1)
  | 143 => num1 D s (fun n => - n)
  | 144 => num1 D s (d_abs D)
  | 145 => num1 D s (fun n => truth (n =? 0))
  | 146 => num1 D s (fun n => truth (negb (n =? 0)))
  | 147 => num2 D s (fun a b => a + b)
  | 148 => num2 D s (fun a b => a - b)
  | 154 => num2 D s (fun a b => truth (negb (a =? 0) && negb (b =? 0)))
  | 155 => num2 D s (fun a b => truth (negb (a =? 0) || negb (b =? 0)))
  | 156 => num2 D s (fun a b => truth (a =? b))
  | 157 => need2 s (fun y x r => match operand_of D x, operand_of D y with
             | Some a, Some b => if a =? b then Some r else None | _, _ => None end)
  | 158 => num2 D s (fun a b => truth (negb (a =? b)))
  | 159 => num2 D s (fun a b => truth (a <? b))
  | 160 => num2 D s (fun a b => truth (b <? a))
  | 161 => num2 D s (fun a b => truth (a <=? b))
  | 162 => num2 D s (fun a b => truth (b <=? a))
  | 163 => num2 D s (fun a b => if a <? b then a else b)
  | 164 => num2 D s (fun a b => if a <? b then b else a)
  | 165 => need3 s (fun hi lo x r =>
             let m := d_minimal D && d_within D in
             match operand_with D m x, operand_with D m lo, operand_with D m hi with
             | Some x, Some lo, Some hi => Some (script_num (truth ((lo <=? x) && (x <? hi))) :: r) | _, _, _ => None end)
  | 166 => hashed s ripemd160
  | 167 => hashed s sha1
  | 168 => hashed s sha256
  | 169 => if d_hash160 D then hashed s (fun x => ripemd160 (sha256 x)) else None
  | 170 => hashed s (fun x => sha256 (sha256 x))
  | 171 => Some s
  | _ => None
  end.

(** CHECKMULTISIG with no signatures: the number of keys, the keys, the number of signatures
    (0), and one more item; the keys count as operations.  Result: the stack below and the
    number of keys. *)
Definition no_signatures (D : dialect) (s : list bytes) : option (list bytes * Z) :=
  need1 s (fun k r => match operand_of D k with
    | Some n => if (0 <=? n) && (n <=? 20) && (n <=? blen r) then
                  need2 (skipn (Z.to_nat n) r) (fun m extra t => match operand_of D m with
                    | Some 0 => if d_dummy D && negb (blen extra =? 0) then None else Some (t, n)
                    | _ => None end)
                else None
    | None => None end).

(** ** Running *)
(** The main and the alternative stack, the values of the enclosing conditions (innermost
    first), and the number of operations so far. *)
Record rstate := RState { r_main : list bytes; r_alt : list bytes; r_cond : list bool; r_ops : Z }.

Definition ref_exec (D : dialect) (z : Z) (st : rstate) : option rstate :=
  let '(RState s a c n) := st in
  match z with
  | 107 => need1 s (fun x r => Some (RState r (x :: a) c n))
  | 108 => need1 a (fun x r => Some (RState (x :: s) r c n))
  | 174 => match no_signatures D s with
           | Some (t, k) => if n + k <=? 201 then Some (RState (script_num 1 :: t) a c (n + k)) else None
           | None => None end
  | 175 => match no_signatures D s with
           | Some (t, k) => if n + k <=? 201 then Some (RState t a c (n + k)) else None
           | None => None end
  | _ => match ref_word D z s with Some s => Some (RState s a c n) | None => None end
  end.

Definition ref_disabled (z : Z) : bool :=
  (126 <=? z) && (z <=? 129) || (131 <=? z) && (z <=? 134) || (141 <=? z) && (z <=? 142) || (149 <=? z) && (z <=? 153).

(** One instruction; the stack limit is checked in [ref_run]. *)
Definition ref_step (D : dialect) (i : Z * option bytes) (st : rstate) : option rstate :=
  let '(z, data) := i in
  let '(RState s a c n) := st in
  let d := match data with Some d => d | None => [] end in
  let n := if 96 <? z then n + 1 else n in
  if 520 <? blen d then None
  else if (96 <? z) && (201 <? n) then None
  else if ref_disabled z then None
  else
    let on := forallb (fun b => b) c in
    match z with
    | 99 => if on then need1 s (fun x r => Some (RState r a (d_true D x :: c) n)) else Some (RState s a (false :: c) n)
    | 100 => if on then need1 s (fun x r => Some (RState r a (negb (d_true D x) :: c) n)) else Some (RState s a (false :: c) n)
    | 101 | 102 => None
    | 103 => match c with b :: r => Some (RState s a (negb b :: r) n) | [] => None end
    | 104 => match c with _ :: r => Some (RState s a r n) | [] => None end
    | _ => if on then (if z <=? 78 then (if d_push D z d then Some (RState (d :: s) a c n) else None) else ref_exec D z (RState s a c n))
           else Some (RState s a c n)
    end.

Definition in_limit (st : rstate) : bool := blen (r_main st) + blen (r_alt st) <=? 1000.
Fixpoint ref_run (D : dialect) (l : list (Z * option bytes)) (st : rstate) : option rstate :=
  match l with
  | [] => Some st
  | i :: r => match ref_step D i st with
              | Some st => if negb (d_each D) || in_limit st then ref_run D r st else None
              | None => None end
  end.
(** A whole script on a given stack: conditions closed, at most 1000 items. *)
Definition ref_eval (D : dialect) (l : list (Z * option bytes)) (s : list bytes) : option (list bytes) :=
  match ref_run D l (RState s [] [] 0) with
  | Some st => match r_cond st with [] => if in_limit st then Some (r_main st) else None | _ => None end
  | None => None
  end.
(** The first script provides the stack for the second, which must leave a true item. *)
Definition ref_accepts (D : dialect) (a b : list (Z * option bytes)) : Prop :=
  exists s x t, ref_eval D a [] = Some s /\ ref_eval D b s = Some (x :: t) /\ d_true D x = true.

(** ** Scripts of the interpreter *)
Definition ref_instr (i : instr) : Z * option bytes := (bZ (i_op i), option_map pyb_bytes (i_data i)).
Definition ref_script (s : script) : list (Z * option bytes) := map ref_instr (s_ins s).
(** Items are bytearrays, or longer than a number can be. *)
Definition numeric_type (p : pyb) : Prop := match p with BA _ => True | Str l => 3 < blen l end.
(** A script as read from bytes: well-formed instructions, data held in bytearrays (or, as in the
    scripts that the library makes itself, in strings of at least 4 bytes); PUSHDATA instructions
    cannot be written back (C59). *)
Definition readable (s : script) : Prop :=
  Forall (fun i => well_formed i /\ ~ pushdata (i_op i) /\ (forall d, i_data i = Some d -> numeric_type d)) (s_ins s).
(** At most 10000 bytes on the wire. *)
Definition sized (s : script) : Prop := exists w, wire_script (map content (s_ins s)) w /\ blen w <= 10000.
(** The rule of SIGPUSHONLY. *)
Definition push_only (f : Z) (s : script) : Prop := flag f SIGPUSHONLY -> Forall (fun i => bZ (i_op i) <= 96) (s_ins s).
(** The interpreter's state as a reference state. *)
Definition ref_state (st : interp) : rstate :=
  RState (rev (map pyb_bytes (s_stack st))) (rev (map pyb_bytes (s_alt st))) (rev (s_vf st)) (s_nop st).
Definition typed (st : interp) : Prop := Forall numeric_type (s_stack st) /\ Forall numeric_type (s_alt st).

(** Opcodes occurring in a script. *)
Definition avoids (zs : list Z) (s : script) : Prop := Forall (fun i => ~ In (bZ (i_op i)) zs) (s_ins s).
(** An item on whose truth the dialects agree. *)
Definition clean (l : bytes) : Prop := ~ (exists r, l = x00 :: r /\ bitcoin_true l).

(** ** Conditions under which the dialects agree *)
(** An executed instruction number [z] on the main stack [s]: the item it tests for truth (IF
    NOTIF VERIFY IFDUP) is clean. *)
Definition tests_clean (zs : list Z) (z : Z) (s : list bytes) : Prop := In z zs -> forall x r, s = x :: r -> clean x.
(** Number of operands on top of the stack that are read as numbers: PICK ROLL and arithmetic. *)
Definition takes (z : Z) : nat :=
  if existsb (Z.eqb z) (121 :: 122 :: unaries) then 1 else if existsb (Z.eqb z) binaries then 2 else if z =? 165 then 3 else 0.
Definition short_operands (z : Z) (s : list bytes) : Prop := Forall (fun x => blen x <= 3) (firstn (takes z) s).
(** [P] holds whenever an instruction of [l] is executed. *)
Definition throughout (D : dialect) (P : Z -> list bytes -> Prop) (l : list (Z * option bytes)) (st : rstate) : Prop :=
  forall l1 z d l2 st1, l = l1 ++ (z, d) :: l2 -> ref_run D l1 st = Some st1 -> ~ In false (r_cond st1) -> P z (r_main st1).
(** ... when the first script and then the second are run. *)
Definition during (D : dialect) (P : Z -> list bytes -> Prop) (a b : list (Z * option bytes)) : Prop :=
  throughout D P a (RState [] [] [] 0) /\ forall s, ref_eval D a [] = Some s -> throughout D P b (RState s [] [] 0).
(** The final item. *)
Definition result (D : dialect) (a b : list (Z * option bytes)) (x : bytes) : Prop :=
  exists s t, ref_eval D a [] = Some s /\ ref_eval D b s = Some (x :: t).
(** Opcodes whose meaning may depend on the dialect: those that test an item, take numbers, or
    are DROP, HASH160, CHECKMULTISIG(VERIFY), NOP2. *)
Definition delicate : list Z := [99; 100; 105; 115; 117; 121; 122; 165; 169; 174; 175; 177] ++ unaries ++ binaries.
(** IF NOTIF IFDUP DROP ABS: accepted scripts with one of these can be invalid in Bitcoin. *)
Definition five : list Z := [99; 100; 115; 117; 144].
(** DROP ABS HASH160 NOP2: valid scripts with one of these can be rejected. *)
Definition four : list Z := [117; 144; 169; 177].
Definition others (z : Z) (l : list Z) : list Z := filter (fun y => negb (y =? z)) l.
(** The state after one step of the interpreter; none if it fails or raises. *)
Definition outcome_state (o : res outcome) : option rstate :=
  match o with Ok (Next st) => Some (ref_state st) | _ => None end.
