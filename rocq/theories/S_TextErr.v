(** Texts that Script.from_string refuses (specification). *)
From Coq Require Import String.
From Coq Require Import ZArith List.
From Verif Require Import Base M_Keys M_Script S_Codec S_Script.
Import ListNotations.
Open Scope Z_scope.

(** A word that should be data in hex after 0x. *)
Inductive bad_hex : bytes -> exn -> Prop :=
  | bh_prefix a : (forall h, a <> txt "0x" ++ h) -> bad_hex a E_Scr_InvalidPushData
  | bh_digits h : (forall d, ~ hex_text h d) -> bad_hex (txt "0x" ++ h) E_InvalidHex.
(** Words, the first of which begins the first instruction that cannot be read, with the error. *)
Inductive bad_tokens : list bytes -> exn -> Prop :=
  | bt_name t r : (forall o, ~ names_op t o) -> (forall n, ~ decimal t n) -> bad_tokens (t :: r) E_Scr_UnknownOpcodeName
  | bt_number t n r : decimal t n -> ~ 1 <= n <= 75 -> bad_tokens (t :: r) E_Op_InvalidConstPushLength
  | bt_const_end t n : decimal t n -> 1 <= n <= 75 -> bad_tokens [t] E_Scr_MissingPushArguments
  | bt_const_hex t n a r e : decimal t n -> 1 <= n <= 75 -> bad_hex a e -> bad_tokens (t :: a :: r) e
  | bt_const_length t n h d r : decimal t n -> 1 <= n <= 75 -> hex_text h d -> blen d <> n ->
      bad_tokens (t :: (txt "0x" ++ h) :: r) E_Ins_InvalidDataLength
  | bt_var_end t o r : names_op t o -> pushdata o -> (List.length r < 2)%nat -> bad_tokens (t :: r) E_Scr_MissingPushArguments
  | bt_var_size t o s a r : names_op t o -> pushdata o -> (forall n, ~ decimal s n) -> bad_tokens (t :: s :: a :: r) E_Scr_InvalidPushSize
  | bt_var_hex t o s n a r e : names_op t o -> pushdata o -> decimal s n -> bad_hex a e -> bad_tokens (t :: s :: a :: r) e
  | bt_var_other t o s n h d r : names_op t o -> pushdata o -> decimal s n -> hex_text h d -> blen d <> n ->
      bad_tokens (t :: s :: (txt "0x" ++ h) :: r) E_Scr_InvalidPushDataLength
  | bt_var_length t o s h d r : names_op t o -> pushdata o -> decimal s (blen d) -> hex_text h d -> ~ push_length o (blen d) ->
      bad_tokens (t :: s :: (txt "0x" ++ h) :: r) E_Ins_InvalidDataLength.
(** Instructions that can be read, and then one that cannot. *)
Definition bad_text (ts : list bytes) (e : exn) : Prop := exists a b l, ts = a ++ b /\ tokens_of a l /\ bad_tokens b e.
