(** Specifications for the codecs, written without any model function. *)
From Verif Require Import Base.

(** Value of a byte string read least significant byte first / most significant first. *)
Fixpoint le_val (l : bytes) : Z :=
  match l with [] => 0 | b :: r => bZ b + 256 * le_val r end.
Definition be_val (l : bytes) : Z := le_val (rev l).

(** Bitcoin CompactSize: the only encoding of [n] allowed, by range. *)
Definition compact_size (n : Z) (l : bytes) : Prop :=
  (0 <= n < 253 /\ exists b, l = [b] /\ bZ b = n) \/
  (253 <= n < 2 ^ 16 /\ exists d, l = xfd :: d /\ length d = 2%nat /\ le_val d = n) \/
  (2 ^ 16 <= n < 2 ^ 32 /\ exists d, l = xfe :: d /\ length d = 4%nat /\ le_val d = n) \/
  (2 ^ 32 <= n < 2 ^ 64 /\ exists d, l = xff :: d /\ length d = 8%nat /\ le_val d = n).

(** A FIFO queue of bytes: what a client may do and what it observes. *)
Inductive fifo_op := FRead (n : nat) | FWrite (d : bytes).
Inductive fifo_out := FGot (d : bytes) | FShort (remaining requested : Z) | FDone.

Inductive fifo_step : bytes -> fifo_op -> fifo_out -> bytes -> Prop :=
  | fifo_read_ok q d rest n : q = d ++ rest -> length d = n -> fifo_step q (FRead n) (FGot d) rest
  | fifo_read_short q n : (length q < n)%nat ->
      fifo_step q (FRead n) (FShort (Z.of_nat (length q)) (Z.of_nat n)) q
  | fifo_write q d : fifo_step q (FWrite d) FDone (q ++ d).

Inductive fifo_run : bytes -> list fifo_op -> list fifo_out -> bytes -> Prop :=
  | fifo_nil q : fifo_run q [] [] q
  | fifo_cons q o x q' ops xs q'' :
      fifo_step q o x q' -> fifo_run q' ops xs q'' -> fifo_run q (o :: ops) (x :: xs) q''.

(** Everything read / written during a run. *)
Fixpoint got (xs : list fifo_out) : bytes :=
  match xs with [] => [] | FGot d :: r => d ++ got r | _ :: r => got r end.
Fixpoint written (ops : list fifo_op) : bytes :=
  match ops with [] => [] | FWrite d :: r => d ++ written r | _ :: r => written r end.

(** Hexadecimal digits: '0'-'9' (48-57), 'A'-'F' (65-70), 'a'-'f' (97-102). *)
Definition is_hex (c : byte) : Prop :=
  48 <= bZ c <= 57 \/ 65 <= bZ c <= 70 \/ 97 <= bZ c <= 102.
(** ASCII lower-casing of one character. *)
Definition lower (c : byte) : byte :=
  if (65 <=? bZ c) && (bZ c <=? 90) then Zb (bZ c + 32) else c.

(** Rank of a character in the base-58 alphabet: digits without 0, upper case
    without I and O, lower case without l; by ASCII code ranges. *)
Definition rank58 (c : byte) : option Z :=
  let z := bZ c in
  if (49 <=? z) && (z <=? 57) then Some (z - 49)
  else if (65 <=? z) && (z <=? 72) then Some (z - 65 + 9)
  else if (74 <=? z) && (z <=? 78) then Some (z - 74 + 17)
  else if (80 <=? z) && (z <=? 90) then Some (z - 80 + 22)
  else if (97 <=? z) && (z <=? 107) then Some (z - 97 + 33)
  else if (109 <=? z) && (z <=? 122) then Some (z - 109 + 44)
  else None.
Definition in58 (c : byte) : Prop := rank58 c <> None.

(** [val58 t v]: the text [t] denotes the number [v] in base 58. *)
Inductive val58 : bytes -> Z -> Prop :=
  | val58_nil : val58 [] 0
  | val58_snoc t v c d : val58 t v -> rank58 c = Some d -> val58 (t ++ [c]) (58 * v + d).

(** Number of leading elements equal to [c]. *)
Fixpoint leading (c : byte) (l : bytes) : nat :=
  match l with b :: r => if byte_eqb b c then S (leading c r) else O | [] => O end.

(** [base58_of b t]: [t] is the base-58 text of [b]. *)
Definition base58_of (b t : bytes) : Prop :=
  val58 t (be_val b) /\ leading x31 t = leading x00 b.

(** Sign-magnitude little-endian numbers of Bitcoin script. *)
Definition sm_val (l : bytes) : Z :=
  match rev l with
  | [] => 0
  | top :: r =>
      let low := le_val (rev r) in
      let w := 256 ^ Z.of_nat (length r) in
      if bZ top <? 128 then low + w * bZ top else - (low + w * (bZ top - 128))
  end.
(** A byte string is canonical when no shorter one denotes the same number. *)
Definition sm_shortest (l : bytes) : Prop :=
  forall l', sm_val l' = sm_val l -> (length l <= length l')%nat.
