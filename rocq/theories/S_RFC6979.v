(** RFC 6979, section 3.2, with HMAC-SHA256: the deterministic nonce. *)
From Coq Require Import ZArith List.
From Verif Require Import Base M_Hash S_Codec.
Import ListNotations.
Open Scope Z_scope.

Definition qlen (q : Z) : Z := Z.log2 q + 1.
(** 2.3.2: the leftmost [qlen] bits *)
Definition bits2int (q : Z) (b : bytes) : Z :=
  if qlen q <? 8 * blen b then be_val b / 2 ^ (8 * blen b - qlen q) else be_val b.
(** 2.3.3 [int2octets] *)
Definition octets (q x : Z) (s : bytes) : Prop := blen s = (qlen q + 7) / 8 /\ be_val s = x.
(** 2.3.4 [bits2octets] *)
Definition bits2octets (q : Z) (b s : bytes) : Prop := octets q (bits2int q b mod q) s.
(** step h.2: [stretch q K V T V' T'] *)
Inductive stretch (q : Z) (K : bytes) : bytes -> bytes -> bytes -> bytes -> Prop :=
| stretch_done V T : qlen q <= 8 * blen T -> stretch q K V T V T
| stretch_more V T V' T' : 8 * blen T < qlen q ->
    stretch q K (hmac_sha256 K V) (T ++ hmac_sha256 K V) V' T' -> stretch q K V T V' T'.
(** step h *)
Inductive attempts (q : Z) : bytes -> bytes -> Z -> Prop :=
| attempt_good K V V' T : stretch q K V [] V' T -> 1 <= bits2int q T < q -> attempts q K V (bits2int q T)
| attempt_bad K V V' T K' k : stretch q K V [] V' T -> ~ 1 <= bits2int q T < q ->
    K' = hmac_sha256 K (V' ++ [x00]) -> attempts q K' (hmac_sha256 K' V') k -> attempts q K V k.
(** steps b to h, from the two strings that are hashed: [int2octets] of the private key and [bits2octets] of the hash *)
Definition nonce_from (q : Z) (xs hs : bytes) (k : Z) : Prop :=
  exists K1 V1 K2 V2,
    K1 = hmac_sha256 (repeat x00 32) (repeat x01 32 ++ [x00] ++ xs ++ hs) /\
    V1 = hmac_sha256 K1 (repeat x01 32) /\
    K2 = hmac_sha256 K1 (V1 ++ [x01] ++ xs ++ hs) /\
    V2 = hmac_sha256 K2 V1 /\
    attempts q K2 V2 k.
(** [h1] is the hash of the message, [x] the private key *)
Definition rfc6979 (q x : Z) (h1 : bytes) (k : Z) : Prop :=
  exists xs hs, octets q x xs /\ bits2octets q h1 hs /\ nonce_from q xs hs k.
