(** How the decoder of DER signatures fails. *)
From Verif Require Import Base S_Codec M_Sign S_Sign.
Open Scope Z_scope.

(** an item of BER: its tag, a length, a content that may end early, and what follows it *)
Definition item (tag : byte) (l body rest : bytes) : Prop :=
  exists h n r, l = tag :: h ++ r /\ ber_length h n /\ body = firstn (Z.to_nat n) r /\ rest = skipn (Z.to_nat n) r.
(** what is not an item, and the error it gives: nothing, another tag, no length, a length longer than the text, and
    the indefinite length *)
Inductive no_item (tag : byte) : bytes -> sexn -> Prop :=
  | ni_empty : no_item tag [] (SX E_IndexError)
  | ni_tag b r : b <> tag -> no_item tag (b :: r) UnexpectedDER
  | ni_no_length : no_item tag [tag] (SX E_IndexError)
  | ni_length_cut b r : 128 <= bZ b -> blen r < bZ b - 128 -> no_item tag (tag :: b :: r) UnexpectedDER
  | ni_indefinite b r : bZ b = 128 -> no_item tag (tag :: b :: r) (SX E_ValueError).
(** integers *)
Definition int_item (l : bytes) (v : Z) (rest : bytes) : Prop := exists body, item x02 l body rest /\ lax_int body /\ v = be_val body.
Inductive no_int : bytes -> sexn -> Prop :=
  | nt_item l e : no_item x02 l e -> no_int l e
  | nt_empty l rest : item x02 l [] rest -> no_int l (SX E_IndexError)
  | nt_negative l b t rest : item x02 l (b :: t) rest -> 128 <= bZ b -> no_int l (SX E_AssertionError).
(** signatures *)
Inductive no_sig : bytes -> sexn -> Prop :=
  | ns_sequence b e : no_item x30 b e -> no_sig b e
  | ns_after_sequence b body c rest : item x30 b body (c :: rest) -> no_sig b UnexpectedDER
  | ns_r b body e : item x30 b body [] -> no_int body e -> no_sig b e
  | ns_s b body r rest e : item x30 b body [] -> int_item body r rest -> no_int rest e -> no_sig b e
  | ns_after_s b body r s rest c junk : item x30 b body [] -> int_item body r rest -> int_item rest s (c :: junk) -> no_sig b UnexpectedDER.
