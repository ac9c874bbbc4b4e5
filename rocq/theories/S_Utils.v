(** Specifications for the helpers of bitforge/utils: WIF texts, address texts, byte strings of integers. *)
From Verif Require Import Base S_Codec S_HD.
Open Scope Z_scope.

(** [t] has only ASCII characters *)
Definition ascii_text (t : bytes) : Prop := Forall (fun c => bZ c < 128) t.
(** [t] is no base58check text *)
Definition no_check_text (t : bytes) : Prop := forall b, ~ check_text b t.

(** the bytes of a WIF text: version, 32 bytes of secret, 01 for a compressed key *)
Definition wif_body (prefix : bytes) (secret : Z) (compressed : bool) (b : bytes) : Prop :=
  exists key, length key = 32%nat /\ be_val key = secret /\ b = prefix ++ key ++ (if compressed then [x01] else []).
(** the same, but with any bytes instead of the 01 *)
Definition wif_loose (prefix : bytes) (secret : Z) (compressed : bool) (b : bytes) : Prop :=
  exists v key rest, prefix = [v] /\ length key = 32%nat /\ be_val key = secret /\ (compressed = true <-> rest <> []) /\
    b = v :: key ++ rest.

(** the bytes of an address text *)
Definition address_body (prefix : byte) (h b : bytes) : Prop := length h = 20%nat /\ b = prefix :: h.

(** [l] denotes [v], most significant byte first ([big]) or last *)
Definition denotes_int (big : bool) (l : bytes) (v : Z) : Prop := (if big then be_val l else le_val l) = v.
(** no leading zero byte *)
Definition minimal (l : bytes) : Prop := match l with b :: _ => bZ b <> 0 | [] => True end.
