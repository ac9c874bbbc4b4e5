(** Base: byte strings, Python results and exceptions, small arithmetic helpers.
    Nothing in this file mirrors a function of /repo except where cited; it fixes
    the value domains every model file shares. *)
From Coq Require Export List ZArith Lia Bool Arith.
From Coq Require Export ZifyBool ZifyNat ZifyN.
From Coq Require Import NArith.
From Coq.Strings Require Import Byte.
Export ListNotations.
Export Byte.
Open Scope Z_scope.

(** Byte strings.  A Python 2 [str] (and the content of a [bytearray]) is a list
    of bytes. *)
Notation bytes := (list byte).

Definition bZ (b : byte) : Z := Z.of_N (Byte.to_N b).
(** [Zb z]: the byte [z mod 256] ([chr] / [bytearray.append] after masking). *)
Definition Zb (z : Z) : byte :=
  match Byte.of_N (Z.to_N (z mod 256)) with Some b => b | None => x00 end.

Definition byte_eqb (a b : byte) : bool := Byte.eqb a b.

Fixpoint bytes_eqb (a b : bytes) : bool :=
  match a, b with
  | [], [] => true
  | x :: a', y :: b' => byte_eqb x y && bytes_eqb a' b'
  | _, _ => false
  end.

(** Python 2 has two byte-string types that behave differently in places:
    [str] (indexing gives a one-character [str]) and [bytearray] (indexing gives
    an int).  [==] compares contents only. *)
Inductive pyb := Str (l : bytes) | BA (l : bytes).
Definition pyb_bytes (p : pyb) : bytes := match p with Str l => l | BA l => l end.
Definition pyb_len (p : pyb) : Z := Z.of_nat (length (pyb_bytes p)).
Definition pyb_eqb (p q : pyb) : bool := bytes_eqb (pyb_bytes p) (pyb_bytes q).

Definition blen {A} (l : list A) : Z := Z.of_nat (length l).

(** Exceptions that a modelled call can raise.  One constructor per Python class;
    payloads are kept where a property mentions them. *)
Inductive exn :=
  (* builtin *)
  | E_TypeError | E_AttributeError | E_IndexError | E_KeyError | E_ValueError
  | E_NameError | E_AssertionError | E_OverflowError | E_UnicodeDecodeError
  | E_ZeroDivisionError | E_MemoryError | E_StopIteration | E_RuntimeError
  (* bitforge/utils/ellipticcurve.py:37 NoSuchPointError(ValueError) *)
  | E_NoSuchPoint
  (* bitforge/utils/encoding.py:40 *)
  | E_UtilsEncodingError
  (* bitforge/encoding.py:13-26 *)
  | E_InvalidBase58h | E_InvalidHex | E_InvalidScriptNumber | E_InvalidMinimalScriptNumber
  (* bitforge/tools.py:12 Buffer.InsufficientData(remaining, requested) *)
  | E_InsufficientData (remaining requested : Z)
  (* bitforge/networks.py:7 *)
  | E_UnknownNetwork
  (* bitforge/privkey.py:36-55, nested in PrivateKey *)
  | E_Priv_InvalidSecret | E_Priv_UnknownNetwork | E_Priv_InvalidWifLength
  | E_Priv_InvalidCompressionByte | E_Priv_InvalidBase58h | E_Priv_InvalidHex
  | E_Priv_InvalidBinaryLength
  (* bitforge/pubkey.py:27-37, nested in PublicKey *)
  | E_Pub_InvalidPair | E_Pub_UnknownNetwork | E_Pub_InvalidBinary | E_Pub_InvalidHex
  (* bitforge/address.py:23-42, nested in Address *)
  | E_Addr_UnknownNetwork | E_Addr_InvalidVersion | E_Addr_InvalidBase58h
  | E_Addr_InvalidHex | E_Addr_InvalidHashLength | E_Addr_InvalidBinaryLength
  | E_Addr_InvalidType
  (* bitforge/script/opcode.py *)
  | E_Op_UnknownOpcodeNumber | E_Op_UnknownOpcodeName | E_Op_InvalidConstPushLength
  | E_Op_InvalidPushLength | E_Op_WrongOpcodeType
  (* bitforge/script/instruction.py *)
  | E_Ins_InvalidDataLength | E_Ins_UnexpectedData
  (* bitforge/script/script.py *)
  | E_Scr_MissingPushArguments | E_Scr_InvalidPushSize | E_Scr_InvalidPushData
  | E_Scr_InvalidPushDataLength | E_Scr_UnknownOpcodeName
  (* bitforge/transaction/transaction.py:22-35 *)
  | E_Tx_NoInputs | E_Tx_NotAnInput | E_Tx_NoOutputs | E_Tx_NotAnOutput | E_Tx_InvalidLockTime
  (* bitforge/transaction/input.py:24-32, output.py:104 *)
  | E_In_UnknownSignatureMethod | E_In_InvalidSignatureCount (required provided : Z)
  | E_Out_TooMuchData
  (* recursion on fuel ran out: proved unreachable wherever it appears *)
  | E_Fuel.

Inductive res (A : Type) := Ok (a : A) | Err (e : exn).
Arguments Ok {A} a.
Arguments Err {A} e.

Definition bind {A B} (m : res A) (f : A -> res B) : res B :=
  match m with Ok a => f a | Err e => Err e end.
Notation "'let!' x ':=' m 'in' k" := (bind m (fun x => k))
  (at level 200, x pattern, m at level 100, k at level 200, right associativity).

Definition is_ok {A} (r : res A) : bool := match r with Ok _ => true | Err _ => false end.

(** Python [try: m except C: raise e']: exceptions selected by [sel] become [e']. *)
Definition recatch {A} (m : res A) (sel : exn -> bool) (e' : exn) : res A :=
  match m with Ok a => Ok a | Err e => if sel e then Err e' else Err e end.

(** Slicing [l[:k]], [l[k:]] for non-negative k, and [l[-k:]], [l[:-k]] for k > 0. *)
Definition last_n {A} (k : nat) (l : list A) : list A := skipn (length l - k) l.
Definition drop_last {A} (k : nat) (l : list A) : list A := firstn (length l - k) l.

(** Python [l.rjust(k, c)] / left padding, and generic repeat. *)
Definition zeros (k : nat) : bytes := repeat x00 k.

(** ---- basic facts (no model content) ---- *)

Lemma bZ_range b : 0 <= bZ b < 256.
Proof. destruct b; vm_compute; split; congruence. Qed.

Lemma Zb_bZ b : Zb (bZ b) = b.
Proof. destruct b; reflexivity. Qed.

Lemma bZ_Zb_mod z : bZ (Zb z) = z mod 256.
Proof.
  assert (H : 0 <= z mod 256 < 256) by (apply Z.mod_pos_bound; lia).
  unfold Zb. destruct (Byte.of_N (Z.to_N (z mod 256))) as [b|] eqn:E.
  - apply Byte.to_of_N in E. unfold bZ. rewrite E. lia.
  - exfalso. apply Byte.of_N_None_iff in E. lia.
Qed.

Lemma bZ_Zb z : 0 <= z < 256 -> bZ (Zb z) = z.
Proof. intros H. rewrite bZ_Zb_mod. apply Z.mod_small; lia. Qed.

Lemma bZ_inj a b : bZ a = bZ b -> a = b.
Proof. intros H. rewrite <- (Zb_bZ a), <- (Zb_bZ b), H. reflexivity. Qed.

Lemma bZ_eq_iff a b : bZ a = bZ b <-> a = b.
Proof. split; [apply bZ_inj | intros ->; reflexivity]. Qed.

Lemma Zb_mod z : Zb (z mod 256) = Zb z.
Proof. unfold Zb. rewrite Z.mod_mod by lia. reflexivity. Qed.

Lemma byte_eqb_eq a b : byte_eqb a b = true <-> a = b.
Proof. unfold byte_eqb. split; [apply Byte.byte_dec_bl | apply Byte.byte_dec_lb]. Qed.

Lemma byte_eqb_refl a : byte_eqb a a = true.
Proof. apply byte_eqb_eq; reflexivity. Qed.

Lemma byte_eqb_neq a b : byte_eqb a b = false <-> a <> b.
Proof.
  rewrite <- (byte_eqb_eq a b). destruct (byte_eqb a b); intuition congruence.
Qed.

Lemma bytes_eqb_eq a b : bytes_eqb a b = true <-> a = b.
Proof.
  revert b; induction a as [|x a IH]; intros [|y b]; cbn [bytes_eqb]; try (intuition congruence).
  rewrite andb_true_iff, byte_eqb_eq, IH. intuition congruence.
Qed.

Lemma bytes_eqb_refl a : bytes_eqb a a = true.
Proof. apply bytes_eqb_eq; reflexivity. Qed.

Lemma bytes_eqb_neq a b : bytes_eqb a b = false <-> a <> b.
Proof.
  rewrite <- (bytes_eqb_eq a b). destruct (bytes_eqb a b); intuition congruence.
Qed.

Lemma byte_eq_dec (a b : byte) : {a = b} + {a <> b}.
Proof. destruct (byte_eqb a b) eqn:E; [left; apply byte_eqb_eq | right; apply byte_eqb_neq]; exact E. Qed.

Lemma bytes_eq_dec (a b : bytes) : {a = b} + {a <> b}.
Proof. apply list_eq_dec, byte_eq_dec. Qed.

Lemma bind_ok {A B} (m : res A) (f : A -> res B) b :
  bind m f = Ok b <-> exists a, m = Ok a /\ f a = Ok b.
Proof.
  destruct m as [a|e]; cbn [bind]; split; intros H.
  - exists a; auto.
  - destruct H as [a' [E H]]; congruence.
  - discriminate.
  - destruct H as [a' [E _]]; discriminate.
Qed.

Lemma app_inj_len {A} (a b c d : list A) :
  length a = length c -> a ++ b = c ++ d -> a = c /\ b = d.
Proof.
  revert c; induction a as [|x a IH]; intros [|y c]; cbn [length app]; intros L H; try discriminate; auto.
  injection H as -> H. injection L as L. destruct (IH c L H) as [-> ->]; auto.
Qed.

Lemma app_inj_len_r {A} (a b c d : list A) :
  length b = length d -> a ++ b = c ++ d -> a = c /\ b = d.
Proof.
  intros L H. apply app_inj_len; [|exact H].
  apply (f_equal (@length A)) in H. rewrite !app_length in H. lia.
Qed.

Lemma drop_last_app {A} (a b : list A) k : length b = k -> drop_last k (a ++ b) = a.
Proof.
  intros <-. unfold drop_last. rewrite app_length.
  replace (length a + length b - length b)%nat with (length a + 0)%nat by lia.
  rewrite firstn_app_2. cbn. apply app_nil_r.
Qed.

Lemma last_n_app {A} (a b : list A) k : length b = k -> last_n k (a ++ b) = b.
Proof.
  intros <-. unfold last_n. rewrite app_length.
  replace (length a + length b - length b)%nat with (length a) by lia.
  rewrite skipn_app, skipn_all, Nat.sub_diag. reflexivity.
Qed.

Lemma drop_last_last_n {A} (l : list A) k : drop_last k l ++ last_n k l = l.
Proof. unfold drop_last, last_n. apply firstn_skipn. Qed.

Lemma last_n_length {A} (l : list A) k : (k <= length l)%nat -> length (last_n k l) = k.
Proof. intros H. unfold last_n. rewrite skipn_length. lia. Qed.

Lemma last_n_short {A} (l : list A) k : (length l <= k)%nat -> last_n k l = l.
Proof. intros H. unfold last_n. replace (length l - k)%nat with O by lia. reflexivity. Qed.

Lemma zeros_length k : length (zeros k) = k.
Proof. apply repeat_length. Qed.
